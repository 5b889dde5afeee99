(** What publishing live segments means, independently of the code. *)
From Coq Require Import Ascii String.
From Verif Require Import Base ZMap Bytes JsonModel CtlModel MpdModel.
Local Open Scope list_scope.
Local Open Scope Z_scope.

(** *** Publications: one segment of every stream of a side, under one start time. *)
Definition seg := (Z * Z * bytes)%type.   (* start, duration, bytes *)
Record publication := mkPub { pts : Z; pdur : Z; pdata : list (Z * bytes) }.
(** The completed segments that wait for those of the other streams. *)
Definition waiting := Z -> option seg.
Definition nothing : waiting := fun _ => None.
Definition give (ids : list Z) (gs : list given) (w : waiting) : waiting :=
  fold_left (fun w g => match gseg g with
                        | Some x => if existsb (Z.eqb (gid g)) ids then fun id => if id =? gid g then Some x else w id else w
                        | None => w
                        end) gs w.
(** All streams have one: published together, with the time of the first stream. *)
Definition publish (ids : list Z) (w : waiting) : option publication :=
  match ids with
  | [] => None
  | id :: _ =>
      match w id with
      | Some (ts, dur, _) =>
          if forallb (fun i => match w i with Some _ => true | None => false end) ids
          then Some (mkPub ts dur (map (fun i => (i, match w i with Some (_, _, b) => b | None => [] end)) ids))
          else None
      | None => None
      end
  end.
(** When the video segments are published, audio streams are cut as they are; the first one without any
    frame stops this. *)
Fixpoint cut (ids : list Z) (forced : Z -> option seg) (w : waiting) : waiting :=
  match ids with
  | [] => w
  | i :: r => match forced i with None => w | Some x => cut r forced (fun id => if id =? i then Some x else w id) end
  end.
(** The publications of a sequence of rounds: video and audio. *)
Definition roundIn := (list given * (Z -> option seg))%type.
Fixpoint publications (vids aids : list Z) (rs : list roundIn) (wv wa : waiting) : list publication * list publication :=
  match rs with
  | [] => ([], [])
  | (gs, forced) :: r =>
      let wv := give vids gs wv in
      let wa := match vids with [] => give aids gs wa | _ => wa end in
      let pv := publish vids wv in
      let wa := match pv with Some _ => cut aids forced wa | None => wa end in
      let pa := publish aids wa in
      let '(lv, la) := publications vids aids r (match pv with Some _ => nothing | None => wv end) (match pa with Some _ => nothing | None => wa end) in
      (match pv with Some p => p :: lv | None => lv end, match pa with Some p => p :: la | None => la end)
  end.
Definition lastn {X} (n : nat) (l : list X) : list X := skipn (length l - n) l.
(** The publication of a start time, and the bytes of a stream in it. *)
Definition at_ (ts : Z) (l : list publication) : option publication := find (fun p => pts p =? ts) l.
Definition dataOf (id : Z) (p : publication) : option bytes :=
  match find (fun x => fst x =? id) (pdata p) with Some (_, b) => Some b | None => None end.

(** *** Segment templates, ISO/IEC 23009-1 5.3.9.4.4: text between dollar signs is replaced. *)
Fixpoint expand (t : str) (name : option str) (rid time : str) : option str :=
  match t with
  | [] => match name with None => Some [] | Some _ => None end
  | c :: r =>
      if ascii_dec c "$"%char then
        match name with
        | None => expand r (Some []) rid time
        | Some n =>
            let n := rev n in
            let v := if streqb n [] then Some (lit "$") else if streqb n (lit "RepresentationID") then Some rid
                     else if streqb n (lit "Time") then Some time else None in
            match v, expand r None rid time with Some v, Some x => Some (v ++ x) | _, _ => None end
        end
      else match name with
           | Some n => expand r (Some (c :: n)) rid time
           | None => match expand r None rid time with Some x => Some (c :: x) | None => None end
           end
  end.

(** *** The window of a manifest that is published to and resized. *)
Inductive mop := Publish (ts dur : Z) | Resize (mb ms dur : Z).
(** The window keeps the newest [n]; the second component is what left it at this step, oldest first. *)
Definition slide (n : nat) (w : list (Z * Z)) (x : Z * Z) : list (Z * Z) * list Z :=
  (lastn n (w ++ [x]), map fst (firstn (length (w ++ [x]) - n) (w ++ [x]))).
Fixpoint windows (n : nat) (w : list (Z * Z)) (ops : list mop) : list (Z * Z) * list (list Z) :=
  match ops with
  | [] => (w, [])
  | Publish t du :: r => let '(w', out) := slide n w (t, du) in let '(w'', outs) := windows n w' r in (w'', out :: outs)
  | Resize _ ms _ :: r => windows (Z.to_nat (Z.max 2 ms)) w r
  end.
(** Never made smaller. *)
Fixpoint growing (n : Z) (ops : list mop) : Prop :=
  match ops with
  | [] => True
  | Publish _ _ :: r => growing n r
  | Resize _ ms _ :: r => n <= Z.max 2 ms /\ growing (Z.max 2 ms) r
  end.
