(** Model of what the outputs of the receiver are made for: src/modules/receiver/SourceManager.cpp 147-193, 204-272, 531-570 and 605-618.
    What a stream is (createStreamInfo) and whether a queue can be made for it is AnnModel's.

    Simplified: names of sessions are numbers, in the order std::map keeps them. A session is added with the streams it will have and their ports;
    every subsession can be initiated. A session whose removal would be undefined (RcvModel, StuModel) ends the history: one with an output
    still connected. What else happens to sessions is in SessModel, what arrives in RcvModel. *)
From Verif Require Import Base AnnModel.
From Coq Require Import ZArith List Bool.
Import ListNotations.
Local Open Scope list_scope.
Local Open Scope Z_scope.

(** A session: its name and its streams, with their ports. *)
Record session := mkSe { sName : Z; sSubs : list (Z * heard) }.
(** SourceManager.hh: sessionMap, sinks (with the stream that arrives in each), outputStreamInfos (SourceManager.hh 187), and the connected outputs with what the
    queue of each was made for. *)
Record world := mkR { sessions : list session; sinks : list (Z * heard); infos : list (Z * option info); outs : list (Z * info) }.
(** Model's own: at first there is nothing. *)
Definition world0 : world := mkR [] [] [] [].
(** Model's own: std::map::find. *)
Fixpoint get {A} (p : Z) (l : list (Z * A)) : option A := match l with [] => None | (q, a) :: r => if q =? p then Some a else get p r end.
(** Model's own: std::map::erase. *)
Definition drop {A} (p : Z) (l : list (Z * A)) : list (Z * A) := filter (fun x => negb (fst x =? p)) l.
(** Model's own: the place of a session in the map. *)
Fixpoint insert (s : session) (l : list session) : list session :=
  match l with [] => [s] | t :: r => if sName s <? sName t then s :: l else t :: insert s r end.

(** Session::initiateSession 540-569 with addSink 204-219: it ends at the first port that has a sink. *)
Fixpoint addSinks (l : list (Z * heard)) (s : list (Z * heard)) : list (Z * heard) :=
  match l with [] => s | (p, h) :: r => match get p s with Some _ => s | None => addSinks r ((p, h) :: s) end end.
(** SourceManager.cpp 147-156 and 308-317: a name that is in use is refused. *)
Definition addSession (n : Z) (l : list (Z * heard)) (w : world) : world :=
  if existsb (fun s => sName s =? n) (sessions w) then w
  else mkR (insert (mkSe n l) (sessions w)) (addSinks l (sinks w)) (infos w) (outs w).
(** removeSession 158-193. [None]: an output of one of its ports is connected (171-176: its sink is used after it is erased). *)
Definition removeSession (n : Z) (w : world) : option world :=
  match filter (fun s => sName s =? n) (sessions w) with
  | [] => Some w
  | s :: _ =>
      if existsb (fun x => match get (fst x) (sinks w), get (fst x) (outs w) with Some _, Some _ => true | _, _ => false end) (sSubs s) then None
      else Some (mkR (filter (fun s => negb (sName s =? n)) (sessions w)) (fold_left (fun a x => drop (fst x) a) (sSubs s) (sinks w)) (infos w) (outs w))
  end.
(** getSubsessionByPort 605-618, for each session in the order of the map (239-246). *)
Fixpoint byPort (p : Z) (l : list session) : option heard :=
  match l with [] => None | s :: r => match get p (sSubs s) with Some h => Some h | None => byPort p r end end.
(** allocQueue 230-260: what is remembered for the port, or else what its stream is, which is remembered then, even if it is nothing. *)
Definition infoOf (p : Z) (w : world) : option info * list (Z * option info) :=
  match get p (infos w) with
  | Some i => (i, infos w)
  | None => match byPort p (sessions w) with
            | Some h => (createStreamInfo h, (p, createStreamInfo h) :: infos w)
            | None => (None, infos w)
            end
  end.
(** BaseFilter::connect, Filter.cpp 338-363, with specificWriterConfig 221-228 and allocQueue: [Some i]: the output is connected to a queue for [i]. *)
Definition connect (p : Z) (w : world) : world * option info :=
  match get p (outs w), get p (sinks w) with
  | None, Some _ =>
      let (i, m) := infoOf p w in
      match i with
      | Some i => if queueMade i then (mkR (sessions w) (sinks w) m ((p, i) :: outs w), Some i) else (mkR (sessions w) (sinks w) m (outs w), None)
      | None => (mkR (sessions w) (sinks w) m (outs w), None)
      end
  | _, _ => (w, None)
  end.
(** disconnectWriter, Filter.cpp 390-404, with specificWriterDelete 262-272, which keeps what is remembered. *)
Definition disconnect (p : Z) (w : world) : world := mkR (sessions w) (sinks w) (infos w) (drop p (outs w)).

(** Model's own: what happens. *)
Inductive ev := AddS (n : Z) (l : list (Z * heard)) | Remove (n : Z) | Connect (p : Z) | Disconnect (p : Z).
(** Model's own: one step. *)
Definition step (e : ev) (w : world) : option world :=
  match e with
  | AddS n l => Some (addSession n l w)
  | Remove n => removeSession n w
  | Connect p => Some (fst (connect p w))
  | Disconnect p => Some (disconnect p w)
  end.
(** Model's own: a history. *)
Fixpoint run (es : list ev) (w : world) : option world :=
  match es with [] => Some w | e :: r => match step e w with Some w' => run r w' | None => None end end.
