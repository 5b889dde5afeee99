(** Annex B: NAL units separated by start codes of three or four bytes. *)
From Verif Require Import Base Bytes.
Local Open Scope list_scope.
Local Open Scope Z_scope.

(** The bytes of a NAL unit: not empty, no start code inside, last byte not zero (H.264, 7.4.1 and Annex B). *)
Definition nal (n : bytes) : Prop := n <> [] /\ (forall a b, n <> a ++ [0; 0; 1] ++ b) /\ last n 0 <> 0.
(** A unit with the form of its start code. *)
Record unit_ := mkU { short : bool; body : bytes }.
Definition code (u : unit_) : bytes := if short u then [0; 0; 1] else [0; 0; 0; 1].
Definition annexB (us : list unit_) : bytes := concat (map (fun u => code u ++ body u) us).
(** What a filter after the demuxer expects for a unit. *)
Definition framed (u : unit_) : bytes := [0; 0; 0; 1] ++ body u.
(** What the demuxer does: a unit starts a new frame only if at least eight bytes are left in the packet. *)
Fixpoint pieces (us : list unit_) : list bytes :=
  match us with
  | [] => []
  | u :: rest => if len (annexB rest) <? 8 then [framed u ++ annexB rest] else framed u :: pieces rest
  end.

(** *** The whole stream *)
From Verif Require Import DmxModel.
Section Stream.
Variable toUs : Z -> Z -> Z.
Variable startTime : Z.
Variable connected : Z -> bool.
(** How a packet is carried: the bytes to split, the units in them. *)
Definition carried (i : psinfo) (p : packet) : option bytes := if needsFraming i && negb (isAnnexB i) then kConv p else Some (kData p).
(** The frames a packet should give: the payloads with the packet's stream and time. *)
Definition outOf (splitter : list unit_ -> list bytes) (i : psinfo) (time : Z) (p : packet) (us : list unit_) : list dframe :=
  if negb (connected (kStream p)) then []
  else if needsFraming i then match carried i p with None => [] | Some _ => map (mkD (kStream p) time) (splitter us) end
  else [mkD (kStream p) time (kData p)].
(** All packets: packets of unknown streams are skipped; a packet without a time gets [without] of the last one of
    its stream that had one (0 before). *)
Fixpoint outAll (splitter : list unit_ -> list bytes) (without : Z -> Z -> Z) (known : Z -> option psinfo) (last : Z -> Z) (l : list (packet * list unit_)) : list dframe :=
  match l with
  | [] => []
  | (p, us) :: r =>
      let s := kStream p in
      match known s with
      | None => outAll splitter without known last r
      | Some i =>
          let last := match kPts p with Some t => fun x => if x =? s then t else last x | None => last end in
          let time := match kPts p with Some t => toUs s t + startTime | None => without s (last s) + startTime end in
          outOf splitter i time p us ++ outAll splitter without known last r
      end
  end.
(** A packet of a stream to be split holds whole NAL units. *)
Definition wfPacket (known : Z -> option psinfo) (x : packet * list unit_) : Prop :=
  forall i, known (kStream (fst x)) = Some i -> needsFraming i = true -> forall b, carried i (fst x) = Some b -> b = annexB (snd x) /\ snd x <> [] /\ Forall (fun u => nal (body u)) (snd x).
End Stream.
(** No unit but the first begins in the last seven bytes. *)
Fixpoint roomy (us : list unit_) : Prop := match us with [] => True | u :: rest => (rest = [] \/ 8 <= len (annexB rest)) /\ roomy rest end.
