(** What is asked of an encoder library, and the words the encoder properties use. *)
From Verif Require Import Base ZMap EncModel.
Local Open Scope list_scope.
Local Open Scope Z_scope.

(** One opening of the codec: the pictures it has taken with their numbers, the numbers it has given back, its last dts. *)
Record session := mkSe { taken : list (Z * pic); gone : list Z; lastDts : option Z }.
Definition session0 : session := mkSe [] [] None.
(** How an entry of the log changes the session. *)
Definition after (s : session) (x : entry) : session :=
  let s := if fresh x then session0 else s in
  match given x, ans x with
  | None, _ | Some _, Fails => s
  | Some (n, _, p), Delayed => mkSe ((n, p) :: taken s) (gone s) (lastDts s)
  | Some (n, _, p), Coded o d _ => mkSe ((n, p) :: taken s) (o :: gone s) (Some d)
  end.
Definition sessionOf (es : list entry) : session := fold_left after es session0.
(** A codec gives back each picture it has taken at most once; its dts increase and never pass the pts. *)
Definition fair (s : session) (x : entry) : Prop :=
  let s := if fresh x then session0 else s in
  match given x, ans x with
  | Some (n, _, p), Coded o d _ =>
      In o (map fst ((n, p) :: taken s)) /\ ~ In o (gone s) /\ d <= o /\ (forall l, lastDts s = Some l -> l < d)
  | _, _ => True
  end.
Definition honest (es : list entry) : Prop := forall a x b, es = a ++ x :: b -> fair (sessionOf a) x.

(** Intra pictures asked for: presentation time and request, in order. *)
Definition asked (es : list entry) : list (Z * bool) :=
  flat_map (fun x => match given x with Some (_, i, p) => [(ptm p, i)] | None => [] end) es.
Definition delivered (es : list entry) : list out := flat_map (fun x => match deliv x with Some f => [f] | None => [] end) es.
(** Pictures the codec has taken (a call that fails takes none). *)
Definition accepted (es : list entry) : nat :=
  length (filter (fun x => match given x, ans x with Some _, Fails | None, _ => false | _, _ => true end) es).
(** A codec with a constant delay: the n-th coded picture (from 0) has dts n - delay; and every coded picture is passed on. *)
Definition steady (delay : Z) (es : list entry) : Prop :=
  forall a x b o d ns, es = a ++ x :: b -> given x <> None -> ans x = Coded o d ns -> d = Z.of_nat (length (delivered a)) - delay /\ deliv x <> None.
(** Only pictures happen. *)
Definition pictures (ops : list op) : Prop := Forall (fun o => match o with Picture _ _ _ => True | _ => False end) ops.
(** Every picture gets as far as the codec. *)
Definition allGiven (es : list entry) : Prop := Forall (fun x => given x <> None) es.
(** Times that do not go back and are at most [g] apart, starting from [t0]. *)
Fixpoint spaced (g t0 : Z) (ts : list Z) : Prop := match ts with [] => True | t :: r => t0 <= t <= t0 + g /\ spaced g t r end.

(** The picture formats an encoder codes, by the numbers of PixType: YUV420P, YUV422P (x264 only) and YUV444P. *)
Definition codes (l : lib) (f : Z) : Prop := f = 2 \/ f = 4 \/ (f = 3 /\ l = X264).
(** The picture is as those the encoder is set up for, and no new setting waits to be used. *)
Definition asBefore (p : pic) (e : enc) : Prop := needsConfig e = false /\ wid p = cwid e /\ hei p = chei e /\ pfmt p = cfmt e.
