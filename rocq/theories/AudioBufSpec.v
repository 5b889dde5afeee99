(** Specification of an audio re-framing buffer: a time line of samples. It does not
    mention the model. [None] marks requests outside what the specification covers:
    malformed input frames, more than 2^32 samples since synchronisation, and gaps
    whose silence is longer than the silence the buffer has at hand. *)
From Verif Require Import Base AudioBufIface.

Section Spec.
Context {B : Type}.
Variable zero : B.
Variable ch : nat.              (* channels *)
Variable c : acfg.

Record timeline := mkTl {
  origin : option Z;            (* time of sample 0 *)
  wr : nat;                     (* samples written since the origin *)
  rd : nat;                     (* samples delivered since the origin *)
  stored : list (list B);       (* per channel: bytes written and not delivered *)
  out : option (Z * list (list B))  (* frame currently handed out *)
}.

(** Bytes a channel can store: [maxs] milliseconds of whole-kHz audio. *)
Definition room : nat := maxs c * (rate c / 1000) * bps c.
(** Time of the n-th sample after the origin, in microseconds. *)
Definition at_time (n : nat) : Z := (Z.of_nat n * 1000000 / Z.of_nat (rate c))%Z.
(** Tolerated deviation: the duration of 64 samples. *)
Definition tolerance : Z := (64 * 1000000 / Z.of_nat (rate c))%Z.
(** Bytes stored per channel. *)
Definition used (t : timeline) : nat := (wr t - rd t) * bps c.
Definition limit : Z := (2 ^ 32)%Z.

Definition append (t : timeline) (n : nat) (bufs : list (list B)) : timeline :=
  mkTl (origin t) (wr t + n) (rd t)
       (map (fun p => fst p ++ firstn (n * bps c) (snd p)) (combine (stored t) bufs)) (out t).

(** [n] samples of the frame fit. *)
Definition fits (t : timeline) (n : nat) : bool := used t + n * bps c <=? room.

Definition silence : list (list B) := repeat (repeat zero (cap c)) ch.

(** Append the frame if it fits, otherwise drop it. *)
Definition offer (t : timeline) (n : nat) (bufs : list (list B)) : timeline * aans B :=
  if fits t n then (append t n bufs, Told (rids c)) else (t, Told []).

Definition well_formed (n : nat) (bufs : list (list B)) : bool :=
  (length bufs =? ch) && forallb (fun b => n * bps c <=? length b) bufs.

Definition tl_step (t : timeline) (o : aop B) : option (timeline * aans B) :=
  match o with
  | Put ts n bufs =>
      if negb (well_formed n bufs) || (limit <=? Z.of_nat (wr t))%Z then None else
      let org := match origin t with Some x => x | None => ts end in
      let t := mkTl (Some org) (wr t) (rd t) (stored t) (out t) in
      let early := (ts - (org + at_time (wr t)))%Z in
      if (early <? - tolerance)%Z then Some (t, Told [])            (* late: discarded *)
      else if (early <=? tolerance)%Z then Some (offer t n bufs)    (* on time: appended *)
      else
        let gap := (early * Z.of_nat (rate c) / 1000000)%Z in
        if (limit <=? gap)%Z then None
        else if (Z.of_nat (maxs c) <=? gap)%Z then
          (* discontinuity: start over with the next frame *)
          Some (mkTl None 0 0 (repeat [] ch) (out t), Told [])
        else
          let g := Z.to_nat gap in
          if negb (fits t g) then Some (t, Told [])
          else if cap c <? g * bps c then None
          else Some (offer (append t g silence) n bufs)
  | Fetch =>
      match out t with
      | Some f => Some (t, Out (Some f))
      | None =>
          if (limit <=? Z.of_nat (rd t))%Z then None
          else if used t <? osz c * bps c then Some (t, Out None)
          else
            let f := ((match origin t with Some x => x | None => 0 end + at_time (rd t))%Z,
                      map (firstn (osz c * bps c)) (stored t)) in
            Some (mkTl (origin t) (wr t) (rd t + osz c) (map (skipn (osz c * bps c)) (stored t)) (Some f),
                  Out (Some f))
      end
  | Next => Some (mkTl (origin t) (wr t) (rd t) (stored t) None, Freed (wid c))
  end.

Fixpoint tl_run (t : timeline) (os : list (aop B)) : option (timeline * list (aans B)) :=
  match os with
  | [] => Some (t, [])
  | o :: rest => match tl_step t o with
                 | Some (t1, x) => match tl_run t1 rest with
                                   | Some (t2, xs) => Some (t2, x :: xs)
                                   | None => None end
                 | None => None end
  end.

Definition tl_init : timeline := mkTl None 0 0 (repeat [] ch) None.

(** Buffers the constructor accepts and that can hold one output frame. *)
Definition sane : Prop :=
  1 <= bps c /\ 1000 <= rate c /\ 1 <= maxs c /\ osz c * bps c <= cap c.

(** Reading a history: what was accepted and what was delivered, per channel [k]. *)
Definition accepted (k : nat) (h : list (aop B * aans B)) : list B :=
  flat_map (fun p => match p with
    | (Put _ n bufs, Told (_ :: _)) => firstn (n * bps c) (nth k bufs [])
    | _ => [] end) h.

(** Frames delivered as new: the first Fetch after each Next. *)
Fixpoint delivered (k : nat) (holding : bool) (h : list (aop B * aans B)) : list B :=
  match h with
  | [] => []
  | (Fetch, Out (Some (_, o))) :: r =>
      if holding then delivered k true r else nth k o [] ++ delivered k true r
  | (Next, _) :: r => delivered k false r
  | _ :: r => delivered k holding r
  end.

(** Samples offered. *)
Definition count_in (os : list (aop B)) : nat :=
  fold_right (fun o a => match o with Put _ n _ => n + a | _ => a end) 0 os.

(** Frames with one buffer per channel, each long enough. *)
Definition all_well_formed (os : list (aop B)) : Prop :=
  Forall (fun o => match o with Put _ n bufs => well_formed n bufs = true | _ => True end) os.

(** Frames that arrive when the previous ones end, within the tolerance. *)
Fixpoint on_time (t : timeline) (os : list (aop B)) : Prop :=
  match os with
  | [] => True
  | o :: r =>
      match o with
      | Put ts _ _ => match origin t with
                      | Some org => (Z.abs (ts - (org + at_time (wr t))) <= tolerance)%Z
                      | None => wr t = 0
                      end
      | _ => True
      end /\
      match tl_step t o with Some (t', _) => on_time t' r | None => True end
  end.
End Spec.
Arguments timeline : clear implicits.
