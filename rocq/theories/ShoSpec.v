(** What C106 speaks of. *)
From Verif Require Import Base Bytes ShmModel ShoModel.
Local Open Scope list_scope.
Local Open Scope Z_scope.

(** Two frames of the same content: sequence number, size, pixel format, time and bytes. *)
Definition sameContent (f g : vframe) : Prop := vSeq f = vSeq g /\ vW f = vW g /\ vH f = vH g /\ vPix f = vPix g /\ vTime f = vTime g /\ vData f = vData g.
(** Whether both sides of the filter are connected. *)
Definition between (w : world) : bool := match inq w, outq w with Some _, Some _ => true | _, _ => false end.
(** The video frames that arrive during a history while both sides are connected. *)
Fixpoint arrived (es : list ev) (w : world) : list vframe :=
  match es with
  | [] => []
  | e :: r => (match e with EFrame (Some f) => if between w then [f] else [] | _ => [] end) ++ match step e w with Some w' => arrived r w' | None => [] end
  end.
(** A frame that arrives was in a frame of the queue before the filter: it has the codec of that queue and fits in it. *)
Definition fromInput (w : world) (e : ev) : Prop :=
  match e, inq w with
  | EFrame (Some f), Some q => qVideo q = true /\ vCodec f = qCodec q /\ len (vData f) <= qCap q
  | EFrame None, Some q => qVideo q = false
  | _, _ => True
  end.
(** The order in which the pipeline is built: the input is connected, to a stream of video, before the output and not again while the output is connected; the
    description of the stream the filter is connected to does not change. *)
Definition inOrder (w : world) (e : ev) : Prop :=
  match e with
  | EIn i _ => outq w = None /\ forall d, find i (descs w) = Some d -> dVideo d = true
  | EOut => exists q, inq w = Some q
  | EChange i _ => forall q, inq w = Some q -> qFrom q <> i
  | _ => True
  end.
(** A condition on every step of a history. *)
Fixpoint always (P : world -> ev -> Prop) (es : list ev) (w : world) : Prop :=
  match es with [] => True | e :: r => P w e /\ forall w', step e w = Some w' -> always P r w' end.
(** Twice the bytes a pixel takes in each format. *)
Definition halfBytes (p : pix) : Z :=
  match p with RGB24 => 6 | RGB32 => 8 | YUV420P | YUVJ420P => 3 | YUV422P | YUYV422 => 4 | YUV444P => 6 | P_NONE => 0 end.
