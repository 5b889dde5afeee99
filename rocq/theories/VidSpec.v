(** What the video mixer and the video splitter should do, independently of how they do it. *)
From Verif Require Import Base ZMap F32 VidModel.
From Coq Require Import Sorted.
Local Open Scope Z_scope.

(** A fraction of [N] pixels: the float product, truncated. *)
Definition pix (frac N : Z) : Z := Z.quot (fmul frac (N * one)) one.
(** A channel that takes part in a picture: its number, configuration and input picture. *)
Record shown := mkS { sid : Z; sch : chan; sw : Z; sh : Z; spts : Z; spix : pixels }.
Definition visible (m : vmixer) (ins : list (Z * input)) (s : shown) : Prop :=
  In (sid s, Video (sw s) (sh s) (spts s) (spix s)) ins /\ mfind (sid s) (cfg m) = Some (sch s) /\ cen (sch s) = true /\ 0 <= clayer (sch s) < maxCh m.
(** Drawing order: by layer, then by number. *)
Definition below (a b : shown) : Prop := clayer (sch a) < clayer (sch b) \/ (clayer (sch a) = clayer (sch b) /\ sid a < sid b).

Section Paint.
Variable scale : Z -> Z -> pixels -> Z -> Z -> pixels.
Variable blend : Z -> Z -> Z -> Z.
(** What a channel does to one pixel of the layout. *)
Definition paint (W H : Z) (px py : Z) (old : Z) (s : shown) : Z :=
  let c := sch s in
  let x := pix (cx c) W in let y := pix (cy c) H in let w := pix (cw c) W in let h := pix (ch c) H in
  if (x <=? px) && (px <? x + w) && (y <=? py) && (py <? y + h) then
    let src := if (sw s =? w) && (sh s =? h) then spix s else scale (sw s) (sh s) (spix s) w h in
    if cop c =? one then src (px - x) (py - y) else blend (cop c) (src (px - x) (py - y)) old
  else old.
End Paint.
(** The channels of a picture in drawing order, and the picture. *)
Definition drawing (m : vmixer) (ins : list (Z * input)) (L : list shown) : Prop :=
  StronglySorted below L /\ forall s, In s L <-> visible m ins s.
(** A channel as documented: inside the layout, at least one pixel large. *)
Definition goodChan (W H : Z) (c : chan) : Prop :=
  0 <= cx c <= one /\ 0 <= cy c <= one /\ cw c <= one /\ ch c <= one /\ one <= cw c * W /\ one <= ch c * H.

(** The rectangle (x,y,w,h) of a picture [p], as a picture. *)
Definition rectOf (x y : Z) (p : pixels) : pixels := fun px py => p (x + px) (y + py).
