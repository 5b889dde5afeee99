(** Model of the H.264 sequence parameter set reader: src/modules/transmitter/SPSparser/bs.h and h264_stream.c,
    and its caller H264VideoStreamSampler::updateSPSInfo (src/modules/transmitter/H264VideoStreamSampler.cpp
    121-173). Every load is checked against the buffer and every store into an array of sps_t against its size. *)
From Verif Require Import Base Bytes.
Local Open Scope list_scope.
Local Open Scope Z_scope.

(** [Oob]: a load outside the buffer; [Ovr]: a store outside an array of sps_t; [Ovf]: signed overflow or an
    oversized shift, undefined in C. *)
Inductive out (A : Type) := Got (a : A) | Oob | Ovr | Ovf.
Arguments Got {A} a. Arguments Oob {A}. Arguments Ovr {A}. Arguments Ovf {A}.

(** A load from the buffer, bs.h 81-167. *)
Definition load (buf : bytes) (i : Z) : option Z := if (0 <=? i) && (i <? len buf) then Some (nth (Z.to_nat i) buf 0) else None.

(** *** nal_to_rbsp, h264_stream.c 44-97. [acc] is rbsp_buf[0..j), reversed; [cap] is *rbsp_size on entry. The
    result None stands for the return value -1. *)
Fixpoint nalLoop (fuel : nat) (nal : bytes) (cap i j count : Z) (acc : bytes) : out (option bytes) :=
  match fuel with
  | O => Got (Some (rev acc))
  | S fuel =>
      if i <? len nal then
        match load nal i with
        | None => Oob
        | Some x =>
            if (count =? 2) && (x <? 3) then Got None
            else if (count =? 2) && (x =? 3) then
              if i =? len nal - 1 then Got (Some (rev acc))
              else match load nal (i + 1) with
                   | None => Oob
                   | Some y => if 3 <? y then Got None
                               else if cap <=? j then Got None
                               else nalLoop fuel nal cap (i + 2) (j + 1) (if y =? 0 then 1 else 0) (y :: acc)
                   end
            else if cap <=? j then Got None
            else nalLoop fuel nal cap (i + 1) (j + 1) (if x =? 0 then count + 1 else 0) (x :: acc)
        end
      else Got (Some (rev acc))
  end.
(** h264_stream.c 44-97 *)
Definition nal_to_rbsp (nal : bytes) (cap : Z) : out (option bytes) := nalLoop (length nal) nal cap 1 0 0 [].

(** *** The bit reader, bs.h 34-40, 81-88: [bp] is p - start. *)
Record bs := mkBs { bbuf : bytes; bp : Z; bleft : Z }.
(** bs.h 90-97. *)
Definition bs_new (buf : bytes) : bs := mkBs buf 0 8.
(** bs.h 116. *)
Definition bs_eof (b : bs) : bool := len (bbuf b) <=? bp b.
(** Model's own: reading with the failures above. *)
Definition reader (A : Type) := bs -> out (A * bs).
(** Model's own: reading with the failures above. *)
Definition ret {A} (a : A) : reader A := fun b => Got (a, b).
(** Model's own: reading with the failures above. *)
Definition bind {A B} (m : reader A) (k : A -> reader B) : reader B := fun b => match m b with Got (a, b) => k a b | Oob => Oob | Ovr => Ovr | Ovf => Ovf end.
Notation "x <- m ; k" := (bind m (fun x => k)) (at level 61, m at next level, right associativity).
(** Model's own: reading with the failures above. *)
Definition fail {A} (e : out (A * bs)) : reader A := fun _ => e.

(** if (bits_left == 0) { p ++; bits_left = 8; } *)
Definition advance (b : bs) (left : Z) : bs := if left =? 0 then mkBs (bbuf b) (bp b + 1) 8 else mkBs (bbuf b) (bp b) left.
(** bs_read_u1 124-138. *)
Definition read_u1 : reader Z := fun b =>
  let left := bleft b - 1 in
  if bs_eof b then Got (0, advance b left)
  else match load (bbuf b) (bp b) with None => Oob | Some x => Got (Z.land (Z.shiftr x left) 1, advance b left) end.
(** bs_read_u 158-167, with uint32_t arithmetic: [i] bits remain. *)
Fixpoint read_uLoop (i : nat) (r : Z) : reader Z :=
  match i with
  | O => ret r
  | S i => x <- read_u1; read_uLoop i (Z.lor r (Z.shiftl x (Z.of_nat i) mod 2 ^ 32))
  end.
(** bs.h 158-167. *)
Definition read_u (n : nat) : reader Z := read_uLoop n 0.
(** bs_read_u8 180-191. *)
Definition read_u8 : reader Z := fun b =>
  if (bleft b =? 8) && negb (bs_eof b) then match load (bbuf b) (bp b) with None => Oob | Some x => Got (x, mkBs (bbuf b) (bp b + 1) 8) end
  else read_u 8 b.
(** bs_read_ue 193-205. The loop ends after at most 33 rounds. *)
Fixpoint zeros (fuel : nat) (i : Z) : reader Z := fun b =>
  match fuel with
  | O => Got (i, b)
  | S fuel => match read_u1 b with
              | Got (x, b) => if (x =? 0) && (i <? 32) && negb (bs_eof b) then zeros fuel (i + 1) b else Got (i, b)
              | Oob => Oob | Ovr => Ovr | Ovf => Ovf
              end
  end.
(** bs.h 193-205. *)
Definition read_ue : reader Z :=
  i <- zeros 40 0; r <- read_u (Z.to_nat i); (if 30 <? i then fail Ovf else ret (r + (Z.shiftl 1 i - 1))).
(** bs_read_se 207-219. *)
Definition read_se : reader Z := r <- read_ue; ret (if Z.land r 1 =? 1 then (r + 1) / 2 else - (r / 2)).

(** *** read_seq_parameter_set_rbsp and its parts, h264_stream.c. Only the fields that the program reads
    afterwards are kept; the others steer the reading or are only printed by debug_sps. *)
Record sps := mkSps { spWidth : Z; spHeight : Z; spFrameMbs : Z; spCrop : Z; spL : Z; spR : Z; spT : Z; spB : Z; spUnits : Z; spScale : Z }.
(** A uint32_t stored in an int. *)
Definition toInt (x : Z) : Z := if x <? 2 ^ 31 then x else x - 2 ^ 32.
(** Model's own: the for loops of h264_stream.c 118-150. *)
Fixpoint times {A} (n : nat) (m : reader A) : reader unit := match n with O => ret tt | S n => _x <- m; times n m end.

(** read_scaling_list 198-219 returns at once: the pointers in ScalingList4x4 and ScalingList8x8 were cleared by
    the memset at line 104, so no list is ever read. *)
Definition read_scaling_list : reader unit := ret tt.
(** Lines 118-150. *)
Definition isHigh (profile : Z) : bool := (profile =? 100) || (profile =? 110) || (profile =? 122) || (profile =? 144).
(** h264_stream.c 118-150. *)
Definition read_high : reader unit :=
  chroma <- read_ue;
  _x <- (if chroma =? 3 then read_u1 else ret 0);
  _x <- read_ue; _x <- read_ue; _x <- read_u1;
  scaling <- read_u1;
  if scaling =? 0 then ret tt else times 8 (f <- read_u1; if f =? 0 then ret tt else read_scaling_list).
(** Lines 152-167. offset_for_ref_frame has 256 elements. *)
Definition read_poc : reader unit :=
  t <- read_ue;
  if t =? 0 then _x <- read_ue; ret tt
  else if t =? 1 then
    _x <- read_u1; _x <- read_se; _x <- read_se; n <- read_ue; (if 256 <? n then fail Ovr else times (Z.to_nat n) read_se)
  else ret tt.
(** read_hrd_parameters 296-313: the arrays have 32 elements. *)
Definition read_hrd : reader unit :=
  n <- read_ue; _x <- read_u 4; _x <- read_u 4;
  _x <- (if 31 <? n then fail Ovr else times (Z.to_nat (n + 1)) (_x <- read_ue; _x <- read_ue; read_u1));
  _x <- read_u 5; _x <- read_u 5; _x <- read_u 5; _x <- read_u 5; ret tt.
(** read_vui_parameters 222-292: num_units_in_tick and time_scale, zero when absent. *)
Definition read_vui : reader (Z * Z) :=
  f <- read_u1; _x <- (if f =? 0 then ret 0 else idc <- read_u8; if idc =? 255 then _x <- read_u 16; read_u 16 else ret 0);
  f <- read_u1; _x <- (if f =? 0 then ret 0 else read_u1);
  f <- read_u1; _x <- (if f =? 0 then ret 0 else _x <- read_u 3; _x <- read_u1; g <- read_u1;
                       if g =? 0 then ret 0 else _x <- read_u8; _x <- read_u8; read_u8);
  f <- read_u1; _x <- (if f =? 0 then ret 0 else _x <- read_ue; read_ue);
  f <- read_u1; timing <- (if f =? 0 then ret (0, 0) else u <- read_u 32; s <- read_u 32; _x <- read_u1; ret (toInt u, toInt s));
  nal <- read_u1; _x <- (if nal =? 0 then ret tt else read_hrd);
  vcl <- read_u1; _x <- (if vcl =? 0 then ret tt else read_hrd);
  _x <- (if (nal =? 0) && (vcl =? 0) then ret 0 else read_u1);
  _x <- read_u1;
  f <- read_u1; _x <- (if f =? 0 then ret 0 else _x <- read_u1; _x <- read_ue; _x <- read_ue; _x <- read_ue; _x <- read_ue; _x <- read_ue; read_ue);
  ret timing.
(** read_rbsp_trailing_bits 316-326. *)
Fixpoint align (fuel : nat) : reader unit := fun b =>
  match fuel with O => Got (tt, b) | S fuel => if bleft b =? 8 then Got (tt, b) else (_x <- read_u1; align fuel) b end.
(** h264_stream.c 316-326. *)
Definition read_trailing : reader unit := _x <- read_u1; align 8.
(** read_seq_parameter_set_rbsp 100-194. *)
Definition read_sps : reader sps :=
  profile <- read_u8;
  _x <- times 6 read_u1; _x <- read_u 2; _x <- read_u8; _x <- read_ue;
  _x <- (if isHigh profile then read_high else ret tt);
  _x <- read_ue; _x <- read_poc; _x <- read_ue; _x <- read_u1;
  w <- read_ue; h <- read_ue; fmo <- read_u1;
  _x <- (if fmo =? 0 then read_u1 else ret 0);
  _x <- read_u1;
  crop <- read_u1;
  c <- (if crop =? 0 then ret (0, 0, 0, 0) else l <- read_ue; r <- read_ue; t <- read_ue; b <- read_ue; ret (l, r, t, b));
  vui <- read_u1;
  timing <- (if vui =? 0 then ret (0, 0) else read_vui);
  _x <- read_trailing;
  let '(l, r, t, b) := c in ret (mkSps w h fmo crop l r t b (fst timing) (snd timing)).

(** *** updateSPSInfo 121-173: fWidth, fHeight (unsigned) and fFrameRate, None when never set (the constructor
    does not set it). int arithmetic is checked, then converted to uint32_t. *)
Record info := mkInfo { fWidth : Z; fHeight : Z; fRate : option Z }.
(** Model's own: the value fits an int. *)
Definition int32 (x : Z) : bool := (- 2 ^ 31 <=? x) && (x <? 2 ^ 31).
(** H264VideoStreamSampler.cpp 149-157. *)
Definition sizeOf (s : sps) : out (Z * Z) :=
  let w := (spWidth s + 1) * 16 in
  let h := (2 - spFrameMbs s) * (spHeight s + 1) * 16 in
  if negb (int32 w && int32 h) then Ovf
  else if spCrop s =? 0 then Got (w mod 2 ^ 32, h mod 2 ^ 32)
  else let cw := spL s * 2 + spR s * 2 in
       let ch := spT s * 2 + spB s * 2 in
       if negb (int32 (spL s * 2) && int32 (spR s * 2) && int32 cw && int32 (spT s * 2) && int32 (spB s * 2) && int32 ch) then Ovf
       else Got ((w - cw) mod 2 ^ 32, (h - ch) mod 2 ^ 32).
(** H264VideoStreamSampler.cpp 146-169. *)
Definition updateInfo (s : sps) (f : info) : out info :=
  match sizeOf s with
  | Got (w, h) =>
      let f := mkInfo (if 0 <? w then w else fWidth f) (if 0 <? h then h else fHeight f) (fRate f) in
      if 0 <? spUnits s then
        if negb (int32 (2 * spUnits s)) then Ovf else Got (mkInfo (fWidth f) (fHeight f) (Some (Z.quot (spScale s) (2 * spUnits s))))
      else Got f
  | Oob => Oob | Ovr => Ovr | Ovf => Ovf
  end.
(** H264VideoStreamSampler.cpp 121-173 *)
Definition updateSPSInfo (nal : bytes) (f : info) : out info :=
  match nal_to_rbsp nal (len nal) with
  | Got None => Got f
  | Got (Some rbsp) => match read_sps (bs_new rbsp) with
                       | Got (s, _) => updateInfo s f
                       | Oob => Oob | Ovr => Ovr | Ovf => Ovf
                       end
  | Oob => Oob | Ovr => Ovr | Ovf => Ovf
  end.

(** *** The bit writer, bs.h 222-329: writes to a bit buffer are rendered as the list of bits written, most
    significant first. [None]: a shift by 32 or more, undefined for uint32_t (line 243). *)
Fixpoint write_u (n : nat) (v : Z) : option (list bool) :=
  match n with
  | O => Some []
  | S i => if 32 <=? Z.of_nat i then None
           else match write_u i v with None => None | Some l => Some (Z.odd (Z.shiftr v (Z.of_nat i)) :: l) end
  end.
(** bs_write_ue 262-317. *)
Definition len_table : list Z := [1; 1] ++ flat_map (fun k => repeat (Z.of_nat k) (2 ^ (k - 1))) [2; 3; 4; 5; 6; 7; 8]%nat.
(** bs.h 262-317. *)
Definition write_ue (v : Z) : option (list bool) :=
  if v =? 0 then Some [true]
  else let v := (v + 1) mod 2 ^ 32 in
       let l := if 2 ^ 24 <=? v then 24 + nth (Z.to_nat (Z.shiftr v 24)) len_table 0
                else if 2 ^ 16 <=? v then 16 + nth (Z.to_nat (Z.shiftr v 16)) len_table 0
                else if 2 ^ 8 <=? v then 8 + nth (Z.to_nat (Z.shiftr v 8)) len_table 0
                else nth (Z.to_nat v) len_table 0 in
       write_u (Z.to_nat (2 * l - 1)) v.
(** bs_write_se 319-329, for values whose double fits. *)
Definition write_se (v : Z) : option (list bool) := if v <=? 0 then write_ue (- v * 2) else write_ue (v * 2 - 1).
