(** What a receiver makes of the packets, and what parameter sets and units are, independently of the code. *)
From Verif Require Import Base Bytes.
From Verif Require Export TxModel.
Local Open Scope list_scope.
Local Open Scope Z_scope.

(** *** Parameter sets in stream configuration data: units, each behind a start code of 3 or 4 bytes. *)
Inductive code := Short | Long.
Definition codeBytes (c : code) : bytes := match c with Short => [0; 0; 1] | Long => [0; 0; 0; 1] end.
Definition wire (us : list (code * bytes)) : bytes := flat_map (fun u => codeBytes (fst u) ++ snd u) us.
(** A NAL unit does not contain 0 0 1 and does not end with 0 (ISO/IEC 14496-10, 7.4.1). *)
Definition okUnit (u : bytes) : Prop :=
  u <> [] /\ Forall isByte u /\ last u 0 <> 0 /\ forall a b, u <> a ++ [0; 0; 1] ++ b.
Definition unitType (c : vcodec) (u : bytes) : Z := match c with H264 => nth 0 u 0 mod 32 | H265 => nth 0 u 0 / 2 mod 64 end.
Definition vpsType (c : vcodec) : option Z := match c with H264 => None | H265 => Some 32 end.
Definition spsType (c : vcodec) : option Z := Some (match c with H264 => 7 | H265 => 33 end).
Definition ppsType (c : vcodec) : option Z := Some (match c with H264 => 8 | H265 => 34 end).
Definition hasType (c : vcodec) (t : option Z) (u : bytes) : bool := match t with Some t => unitType c u =? t | None => false end.
(** The last unit of a type. *)
Definition lastOf (c : vcodec) (t : option Z) (us : list (code * bytes)) : option bytes :=
  last (map Some (filter (hasType c t) (map snd us))) None.

(** *** Sequences that keep the order. *)
Inductive subseq {A : Type} : list A -> list A -> Prop :=
| sub_nil : subseq [] []
| sub_skip x l m : subseq l m -> subseq l (x :: m)
| sub_take x l m : subseq l m -> subseq (x :: l) (x :: m).
Definition takenIn (e : list qev) : list Z := flat_map (fun e => match e with Taken i => [i] | _ => [] end) e.
Definition deliveredIn (e : list qev) : list Z := flat_map (fun e => match e with Delivered i => [i] | _ => [] end) e.
Definition collectedIn (e : list qev) : list Z := flat_map (fun e => match e with Collected i => [i] | _ => [] end) e.

(** *** Access units sampled for UltraGrid. *)
Definition isDelimiter (u : bytes) : Prop := u <> [] /\ nth 0 u 0 mod 32 = 9.
Definition framed (annexb : bool) (u : bytes) : bytes := (if annexb then [0; 0; 0; 1] else be 4 (len u)) ++ u.
Definition picture (annexb : bool) (g : list bytes) : bytes := flat_map (framed annexb) g.
(** Pictures, each followed by its delimiter. *)
Definition stream (gs : list (list bytes * bytes)) : list bytes := flat_map (fun g => fst g ++ [snd g]) gs.

(** *** UltraGrid packets: six big-endian words, then the payload. *)
Definition word (i : nat) (p : bytes) : Z := rd (sub (4 * i) 4 p).
Definition payload (p : bytes) : bytes := skipn 24 p.
Definition offsetOf (p : bytes) : Z := word 1 p.
(** What a receiver does: it writes each payload at its offset. *)
Definition put (p buf : bytes) : bytes :=
  let o := Z.to_nat (offsetOf p) in firstn o buf ++ payload p ++ skipn (o + length (payload p)) buf.
Definition reassemble (ps : list bytes) (buf : bytes) : bytes := fold_left (fun b p => put p b) ps buf.
(** Offsets start at [a], each is where the previous payload ended, the last payload ends at [b], and no payload
    is empty. *)
Fixpoint contiguous (a b : Z) (ps : list bytes) : Prop :=
  match ps with [] => a = b | p :: r => offsetOf p = a /\ payload p <> [] /\ contiguous (a + len (payload p)) b r end.
