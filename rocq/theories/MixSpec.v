(** What mixing means: a timeline of positions, to which frames contribute. *)
From Verif Require Import Base ZMap F32 MixModel.
Local Open Scope Z_scope.

(** A contribution: values for the positions cpos, cpos + 1, ..., cpos + cn - 1 of each channel. *)
Record contrib := mkC { cpos : Z; cn : Z; cval : Z -> Z -> Z }.
(** The value of a position: the contributions to it, in the order they came, each added with compression. *)
Fixpoint mixed (cs : list contrib) (c p : Z) (acc : Z) : Z :=
  match cs with
  | [] => acc
  | x :: r => mixed r c p (if (cpos x <=? p) && (p <? cpos x + cn x) then mixValue acc (cval x c (p - cpos x)) else acc)
  end.

(** The volume controls: gain of each input, master gain. *)
Record volume := mkV { vgain : Z -> option Z; vmaster : Z }.
Definition clamp (v : Z) : Z := Z.min one (Z.max 0 v).
Definition setv (id : Z) (x : option Z) (g : Z -> option Z) : Z -> option Z := fun i => if i =? id then x else g i.
Definition vstep (e : event) (r : result) (v : volume) : volume :=
  match e with
  | EPush id f => match vgain v id, r with
                  | None, RPush Mixed | None, RPush Resynced => if 0 <? fn f then mkV (setv id (Some 0) (vgain v)) (vmaster v) else v
                  | _, _ => v
                  end
  | EExtract => v
  | EGain id x => match vgain v id with Some _ => mkV (setv id (Some (clamp x)) (vgain v)) (vmaster v) | None => v end
  | ESolo id => match vgain v id with
                | Some _ => mkV (fun i => if i =? id then Some one else match vgain v i with Some _ => Some 0 | None => None end) (vmaster v)
                | None => v end
  | EMaster x => mkV (vgain v) x
  | EAdd id => mkV (setv id (Some one) (vgain v)) (vmaster v)
  | EDel id => mkV (setv id None (vgain v)) (vmaster v)
  end.
Definition vol0 : volume := mkV (fun _ => None) th.
(** What a frame contributes. *)
Definition contribution (r origin : Z) (v : volume) (id : Z) (f : frame) : contrib :=
  mkC (posOf r origin (fpts f)) (fn f)
      (fun c j => fmul (fmul (fsample f c j) (match vgain v id with Some g => g | None => 0 end)) (vmaster v)).
(** All that was mixed in a history. *)
Fixpoint contribs (r origin : Z) (v : volume) (es : list event) (rs : list result) : list contrib :=
  match es, rs with
  | e :: es', x :: rs' =>
      match e, x with EPush id f, RPush Mixed => [contribution r origin v id f] | _, _ => [] end ++ contribs r origin (vstep e x v) es' rs'
  | _, _ => []
  end.
Fixpoint outs (rs : list result) : list outFrame :=
  match rs with [] => [] | ROut (Some o) :: r => o :: outs r | _ :: r => outs r end.
(** The origin of time: the first frame that fits in the buffer. *)
Fixpoint originOf (sz : Z) (es : list event) : option Z :=
  match es with
  | [] => None
  | EPush _ f :: r => if fn f <=? sz then Some (fpts f) else originOf sz r
  | _ :: r => originOf sz r
  end.
(** The frames of a history: not before the origin, and less than 2^32 samples after it. *)
Definition frameOk (r origin : Z) (e : event) : Prop :=
  match e with EPush _ f => origin <= fpts f /\ posOf r origin (fpts f) < 4294967296 /\ 0 <= fn f < 4294967296 | _ => True end.
Definition zseq (n : Z) : list Z := map Z.of_nat (seq 0 (Z.to_nat n)).
(** The output frame number [k] when the mixed contributions are [cs]. *)
Definition outputOf (r ch origin : Z) (cs : list contrib) (k : Z) : outFrame :=
  let n := defaultSamples r in
  mkOut (k * n * 1000000 / r + origin) (map (fun c => map (fun j => mixed cs c (k * n + j) 0) (zseq n)) (zseq ch)).

(** Samples within full scale. *)
Definition unitFrame (f : frame) : Prop := forall c j, Z.abs (fsample f c j) <= one.
Definition unitEvent (e : event) : Prop := match e with EPush _ f => unitFrame f | EMaster v => 0 <= v <= one | _ => True end.
