(** The relevant parts of ITU-T H.264 (2014), written from the standard: the codes ue(v), se(v), u(n) (9.1, 9.1.1),
    the syntax of the sequence parameter set (7.3.2.1.1, E.1.1, E.1.2), its encapsulation in a NAL unit (7.3.1,
    7.4.1), and the picture size it stands for (7.4.2.1.1). *)
From Verif Require Import Base Bytes.
Local Open Scope list_scope.
Local Open Scope Z_scope.

(** u(n): the n low bits, most significant first. *)
Fixpoint u_ (n : nat) (v : Z) : list bool := match n with O => [] | S i => Z.testbit v (Z.of_nat i) :: u_ i v end.
(** ue(v): as many zeros as v + 1 has bits after its leading one, then v + 1. *)
Definition ue_ (v : Z) : list bool := let k := Z.to_nat (Z.log2 (v + 1)) in repeat false k ++ u_ (S k) (v + 1).
Definition se_ (v : Z) : list bool := ue_ (if 0 <? v then 2 * v - 1 else - 2 * v).
Definition f_ (b : bool) : list bool := [b].
Definition opt_ {A} (enc : A -> list bool) (x : option A) : list bool := match x with None => [false] | Some a => true :: enc a end.

Record hrdP := mkHrd { hBrs : Z; hCss : Z; hCpb : list (Z * Z * bool); hA : Z; hB : Z; hC : Z; hD : Z }.
Definition hrd_ (h : hrdP) : list bool :=
  ue_ (Z.of_nat (length (hCpb h)) - 1) ++ u_ 4 (hBrs h) ++ u_ 4 (hCss h) ++
  concat (map (fun '(r, s, c) => ue_ r ++ ue_ s ++ f_ c) (hCpb h)) ++ u_ 5 (hA h) ++ u_ 5 (hB h) ++ u_ 5 (hC h) ++ u_ 5 (hD h).
Record vuiP := mkVui {
  vAspect : option (Z * Z * Z); vOverscan : option bool; vSignal : option (Z * bool * option (Z * Z * Z)); vLoc : option (Z * Z);
  vTiming : option (Z * Z * bool); vNal : option hrdP; vVcl : option hrdP; vLow : bool; vPicStruct : bool;
  vRestr : option (bool * (Z * Z * Z * Z * Z * Z)) }.
Definition isSome {A} (x : option A) : bool := match x with Some _ => true | None => false end.
Definition vui_ (v : vuiP) : list bool :=
  opt_ (fun '(idc, w, h) => u_ 8 idc ++ (if idc =? 255 then u_ 16 w ++ u_ 16 h else [])) (vAspect v) ++
  opt_ f_ (vOverscan v) ++
  opt_ (fun '(fmt, full, desc) => u_ 3 fmt ++ f_ full ++ opt_ (fun '(p, t, m) => u_ 8 p ++ u_ 8 t ++ u_ 8 m) desc) (vSignal v) ++
  opt_ (fun '(a, b) => ue_ a ++ ue_ b) (vLoc v) ++
  opt_ (fun '(n, s, fixed) => u_ 32 n ++ u_ 32 s ++ f_ fixed) (vTiming v) ++
  opt_ hrd_ (vNal v) ++ opt_ hrd_ (vVcl v) ++ (if isSome (vNal v) || isSome (vVcl v) then f_ (vLow v) else []) ++
  f_ (vPicStruct v) ++
  opt_ (fun '(mv, (a, b, c, d, e, g)) => f_ mv ++ ue_ a ++ ue_ b ++ ue_ c ++ ue_ d ++ ue_ e ++ ue_ g) (vRestr v).

(** The chroma and scaling part, present for some profiles. A scaling list is given by its delta_scale values. *)
Record highP := mkHigh { gChroma : Z; gPlane : bool; gLuma : Z; gDepth : Z; gBypass : bool; gScaling : option (list (option (list Z))) }.
Definition high_ (g : highP) : list bool :=
  ue_ (gChroma g) ++ (if gChroma g =? 3 then f_ (gPlane g) else []) ++ ue_ (gLuma g) ++ ue_ (gDepth g) ++ f_ (gBypass g) ++
  opt_ (fun ls => concat (map (opt_ (fun ds => concat (map se_ ds))) ls)) (gScaling g).
Inductive pocP := Poc0 (l : Z) | Poc1 (z : bool) (a b : Z) (offs : list Z) | Poc2.
Definition poc_ (p : pocP) : list bool :=
  match p with
  | Poc0 l => ue_ 0 ++ ue_ l
  | Poc1 z a b offs => ue_ 1 ++ f_ z ++ se_ a ++ se_ b ++ ue_ (Z.of_nat (length offs)) ++ concat (map se_ offs)
  | Poc2 => ue_ 2
  end.
Record spsP := mkP {
  pProfile : Z; pFlags : Z; pLevel : Z; pId : Z; pHigh : highP; pLog2 : Z; pPoc : pocP; pRefs : Z; pGaps : bool;
  pWidth : Z; pHeight : Z; pFrameMbs : bool; pMbaff : bool; pDirect : bool; pCrop : option (Z * Z * Z * Z); pVui : option vuiP }.
Definition highProfiles : list Z := [100; 110; 122; 244; 44; 83; 86; 118; 128; 138; 139; 134; 135].
Definition hasHigh (p : spsP) : bool := existsb (Z.eqb (pProfile p)) highProfiles.
Definition sps_ (p : spsP) : list bool :=
  u_ 8 (pProfile p) ++ u_ 8 (pFlags p) ++ u_ 8 (pLevel p) ++ ue_ (pId p) ++ (if hasHigh p then high_ (pHigh p) else []) ++
  ue_ (pLog2 p) ++ poc_ (pPoc p) ++ ue_ (pRefs p) ++ f_ (pGaps p) ++ ue_ (pWidth p) ++ ue_ (pHeight p) ++ f_ (pFrameMbs p) ++
  (if pFrameMbs p then [] else f_ (pMbaff p)) ++ f_ (pDirect p) ++
  opt_ (fun '(l, r, t, b) => ue_ l ++ ue_ r ++ ue_ t ++ ue_ b) (pCrop p) ++ opt_ vui_ (pVui p).

(** rbsp_trailing_bits: a one, then zeros up to a whole number of bytes. *)
Definition trailing (l : list bool) : list bool := l ++ [true] ++ repeat false ((8 - (length l + 1) mod 8) mod 8).
(** Eight bits to the byte. *)
Definition byteOf (l : list bool) : Z := fold_left (fun a (b : bool) => 2 * a + (if b then 1 else 0)) l 0.
Fixpoint pack (n : nat) (l : list bool) : bytes := match n with O => [] | S n => byteOf (firstn 8 l) :: pack n (skipn 8 l) end.
(** The bits of a buffer. *)
Definition bitsOf (buf : bytes) : list bool := concat (map (u_ 8) buf).
Definition rbsp_ (p : spsP) : bytes := let l := trailing (sps_ p) in pack (length l / 8) l.
(** 7.4.1: a byte 3 is inserted wherever a byte of at most 3 would follow two zero bytes, and appended when the
    last byte is zero. [z] zero bytes precede. *)
Fixpoint emulate (z : nat) (l : bytes) : bytes :=
  match l with
  | [] => if (0 <? z)%nat then [3] else []
  | x :: r => if (z =? 2)%nat && (x <=? 3) then 3 :: x :: emulate (if x =? 0 then 1%nat else 0%nat) r
              else x :: emulate (if x =? 0 then S z else 0%nat) r
  end.
Definition nalUnit (header : Z) (rbsp : bytes) : bytes := header :: emulate 0 rbsp.

(** The picture size, 7.4.2.1.1 (7-13) to (7-22). *)
Definition chroma (p : spsP) : Z := if hasHigh p then (if (gChroma (pHigh p) =? 3) && gPlane (pHigh p) then 0 else gChroma (pHigh p)) else 1.
Definition fields (p : spsP) : Z := if pFrameMbs p then 1 else 2.
Definition cropUnitX (p : spsP) : Z := if (chroma p =? 1) || (chroma p =? 2) then 2 else 1.
Definition cropUnitY (p : spsP) : Z := (if chroma p =? 1 then 2 else 1) * fields p.
Definition cropX (p : spsP) : Z := match pCrop p with Some (l, r, _, _) => l + r | None => 0 end.
Definition cropY (p : spsP) : Z := match pCrop p with Some (_, _, t, b) => t + b | None => 0 end.
Definition picWidth (p : spsP) : Z := 16 * (pWidth p + 1) - cropUnitX p * cropX p.
Definition picHeight (p : spsP) : Z := 16 * (pHeight p + 1) * fields p - cropUnitY p * cropY p.

(** Values that fit their codes: u(n), and codes of at most 30 leading zeros. *)
Definition ub (n v : Z) : Prop := 0 <= v < 2 ^ n.
Definition ueOk (v : Z) : Prop := 0 <= v <= 2 ^ 31 - 2.
Definition seOk (v : Z) : Prop := - (2 ^ 30 - 1) <= v <= 2 ^ 30 - 1.
Definition hrdOk (h : hrdP) : Prop := (1 <= length (hCpb h) <= 32)%nat /\ Forall (fun '(r, s, _) => ueOk r /\ ueOk s) (hCpb h).
Definition vuiOk (v : vuiP) : Prop :=
  match vAspect v with Some (idc, _, _) => ub 8 idc | None => True end /\
  match vLoc v with Some (a, b) => ueOk a /\ ueOk b | None => True end /\
  match vTiming v with Some (n, s, _) => 0 < n < 2 ^ 30 /\ 0 <= s < 2 ^ 31 | None => True end /\
  match vNal v with Some h => hrdOk h | None => True end /\ match vVcl v with Some h => hrdOk h | None => True end /\
  match vRestr v with Some (_, (a, b, c, d, e, g)) => ueOk a /\ ueOk b /\ ueOk c /\ ueOk d /\ ueOk e /\ ueOk g | None => True end.
Definition highOk (g : highP) : Prop := 0 <= gChroma g <= 3 /\ ueOk (gLuma g) /\ ueOk (gDepth g).
Definition pocOk (p : pocP) : Prop :=
  match p with Poc0 l => ueOk l | Poc1 _ a b offs => seOk a /\ seOk b /\ Forall seOk offs /\ (length offs <= 255)%nat | Poc2 => True end.
Definition spsOk (p : spsP) : Prop :=
  ub 8 (pProfile p) /\ ueOk (pId p) /\ highOk (pHigh p) /\ ueOk (pLog2 p) /\ pocOk (pPoc p) /\ ueOk (pRefs p) /\
  0 <= pWidth p < 2 ^ 25 /\ 0 <= pHeight p < 2 ^ 25 /\
  match pCrop p with Some (l, r, t, b) => 0 <= l < 2 ^ 28 /\ 0 <= r < 2 ^ 28 /\ 0 <= t < 2 ^ 28 /\ 0 <= b < 2 ^ 28 | None => True end /\
  match pVui p with Some v => vuiOk v | None => True end.
(** No scaling list is transmitted. *)
Definition flatScaling (g : highP) : Prop := match gScaling g with None => True | Some ls => length ls = 8%nat /\ Forall (fun l => l = None) ls end.
