(** Model of the connections between filters: BaseFilter (src/Filter.cpp), Reader and
    Writer (src/IOInterface.cpp) and the connection data of FrameQueue
    (src/FrameQueue.hh 157-211).

    Objects live in heaps: [rds] the Reader objects (shared_ptr), [qs] the queues. A
    Writer object is owned by exactly one entry of a filter's writer map, so it is
    stored there as its queue pointer. Each function runs to completion (one control
    thread; the steps of worker threads are the separate functions [sweep...]).
    Not modelled: frames, sequence numbers, processing of pending commands in
    connect (Filter.cpp 328-329), stream info. What the concrete filter classes answer
    (specificReaderConfig etc.), whether a queue can be allocated and the random identifiers
    are the environment [env]. *)
From Verif Require Import Base ZMap.

Inductive bug :=
| NullDeref | Deadlock
| UseAfterFree               (* of a queue *)
| PathUseAfterFree           (* of a Path object *)
| DoubleFree.
(* Model's own: the error monad. *)
Inductive res (A : Type) := Ok (a : A) | Bad (b : bug).
Arguments Ok {A} a.
Arguments Bad {A} b.
(* Model's own: the error monad. *)
Definition bind {A B} (x : res A) (f : A -> res B) : res B :=
  match x with Ok a => f a | Bad b => Bad b end.
Notation "'do' x <- a ; b" := (bind a (fun x => b)) (at level 200, x pattern, a at level 100, b at level 200).

Record queueo := mkQ {
  qlive : bool;                (* not deleted *)
  qconn : bool;                (* connected *)
  qwr : Z * Z;                 (* connectionData.wFilterId, writerId *)
  qrd : list (Z * Z)           (* connectionData.readers *)
}.
Record readero := mkR {
  rq : option nat;             (* queue *)
  rfs : list Z                 (* keys of Reader::filters *)
}.
Record filt := mkF {
  fobj : nat;                  (* identity of the object *)
  fmaxR : nat; fmaxW : nat;    (* maxReaders, maxWriters *)
  frd : zmap (option nat);     (* readers (an entry may hold NULL) *)
  fwr : zmap (option nat)      (* writers: the queue pointer of each Writer *)
}.
Record net := mkNet {
  fs : zmap filt;              (* PipelineManager::filters *)
  rds : list readero;
  qs : list queueo
}.

Record env := mkEnv {
  rcfg : Z -> Z -> bool;       (* specificReaderConfig of filter, reader id *)
  wcfg : Z -> Z -> bool;       (* specificWriterConfig *)
  rdel : Z -> Z -> bool;       (* specificReaderDelete *)
  wdel : Z -> Z -> bool;       (* specificWriterDelete *)
  aq : Z -> bool;              (* allocQueue of a filter answers non-NULL *)
  rndR : Z -> N;               (* rand() in generateReaderID of a filter *)
  rndW : Z -> N                (* rand() in generateWriterID *)
}.

Definition DEFAULT_ID : Z := 1.   (* Filter.hh 40 *)

(** Look a filter up ([filters[id]] of a present id). *)
Definition getF (n : net) (f : Z) : res filt :=
  match mfind f (fs n) with Some x => Ok x | None => Bad NullDeref end.
(* Model's own: field updates. *)
Definition putF (n : net) (f : Z) (x : filt) : net := mkNet (mset f x (fs n)) (rds n) (qs n).
(* Model's own: field updates. *)
Definition setRd (x : filt) (m : zmap (option nat)) : filt := mkF (fobj x) (fmaxR x) (fmaxW x) m (fwr x).
(* Model's own: field updates. *)
Definition setWr (x : filt) (m : zmap (option nat)) : filt := mkF (fobj x) (fmaxR x) (fmaxW x) (frd x) m.

(** Access to a queue through a pointer. *)
Definition getQ (n : net) (q : nat) : res queueo :=
  match nth_error (qs n) q with
  | Some x => if qlive x then Ok x else Bad UseAfterFree
  | None => Bad UseAfterFree
  end.
(* Model's own: field updates. *)
Definition putQ (n : net) (q : nat) (x : queueo) : net := mkNet (fs n) (rds n) (upd (qs n) q x).
(* Model's own: access through a Reader pointer. *)
Definition getR (n : net) (r : nat) : res readero :=
  match nth_error (rds n) r with Some x => Ok x | None => Bad UseAfterFree end.
(* Model's own: field updates. *)
Definition putR (n : net) (r : nat) (x : readero) : net := mkNet (fs n) (upd (rds n) r x) (qs n).

(** Writer::disconnect 283-297 and Reader::disconnectQueue 43-58: both do the same with
    their queue pointer, which becomes NULL. Returns whether there was a queue. *)
Definition dropQueue (n : net) (p : option nat) : res (net * bool) :=
  match p with
  | None => Ok (n, false)
  | Some q =>
      do x <- getQ n q;
      if qconn x then Ok (putQ n q (mkQ true false (qwr x) (qrd x)), true)
      else Ok (putQ n q (mkQ false false (qwr x) (qrd x)), true)
  end.

(** isConnected of a Writer or Reader, IOInterface.cpp 214-221, 305-312. *)
Definition ptrConnected (n : net) (p : option nat) : res bool :=
  match p with
  | None => Ok false
  | Some q => do x <- getQ n q; Ok (qconn x)
  end.

(** Reader::isConnected through a map entry that may be NULL. *)
Definition readerConnected (n : net) (e : option nat) : res bool :=
  match e with
  | None => Bad NullDeref
  | Some r => do x <- getR n r; ptrConnected n (rq x)
  end.

(** removeReaderCData, FrameQueue.hh 200-213: the first entry of that filter. *)
Fixpoint dropReader (f : Z) (l : list (Z * Z)) : list (Z * Z) :=
  match l with
  | [] => []
  | (a, b) :: t => if (a =? f)%Z then t else (a, b) :: dropReader f t
  end.

(** Reader::disconnect, 194-212. *)
Definition readerDisconnect (n : net) (r : nat) (f : Z) : res (net * bool) :=
  do x <- getR n r;
  if negb (existsb (Z.eqb f) (rfs x)) then Ok (n, false)
  else
    let fl := filter (fun y => negb (y =? f)%Z) (rfs x) in
    let n1 := putR n r (mkR (rq x) fl) in
    do n2 <- (match rq x with
              | None => Ok n1
              | Some q => do y <- getQ n1 q; Ok (putQ n1 q (mkQ true (qconn y) (qwr y) (dropReader f (qrd y))))
              end);
    match fl with
    | _ :: _ => Ok (n2, true)
    | [] => do (n3, b) <- dropQueue n2 (rq x); Ok (putR n3 r (mkR None []), b)
    end.

(** Some filter still holds a shared_ptr to the Reader object. *)
Definition referenced (n : net) (r : nat) : bool :=
  existsb (fun kf => existsb (fun ke => match snd ke with Some r' => r =? r' | None => false end) (frd (snd kf))) (fs n).

(** ~Reader, 38-41, when the last shared_ptr is gone. *)
Definition releaseReader (n : net) (e : option nat) : res net :=
  match e with
  | None => Ok n
  | Some r =>
      if referenced n r then Ok n
      else do x <- getR n r; do (n1, _) <- dropQueue n (rq x); Ok (putR n1 r (mkR None (rfs x)))
  end.

(** deleteReader, Filter.cpp 620-629. *)
Definition deleteReader (n : net) (e : env) (f r : Z) : res (net * bool) :=
  do x <- getF n f;
  match mfind r (frd x) with
  | None => Ok (n, false)
  | Some None => Bad NullDeref
  | Some (Some o) =>
      do (n1, _) <- readerDisconnect n o f;
      do n2 <- releaseReader (putF n1 f (setRd x (mdel r (frd x)))) (Some o);
      Ok (n2, rdel e f r)
  end.

(** disconnectReader, 406-420: an unknown reader is reported as success. *)
Definition disconnectReader (n : net) (e : env) (f r : Z) : res (net * bool) :=
  do x <- getF n f;
  match mfind r (frd x) with
  | None => Ok (n, true)
  | Some None => Bad NullDeref
  | Some (Some o) =>
      do (n1, b) <- readerDisconnect n o f;
      if b then deleteReader n1 e f r else Ok (n1, false)
  end.

(** writers.erase with ~Writer (266-269). *)
Definition eraseWriter (n : net) (f w : Z) : res net :=
  do x <- getF n f;
  match mfind w (fwr x) with
  | None => Ok n
  | Some p => do (n1, _) <- dropQueue n p; Ok (putF n1 f (setWr x (mdel w (fwr x))))
  end.

(** deleteWriter, 310-319. *)
Definition deleteWriter (n : net) (e : env) (f w : Z) : res (net * bool) :=
  do x <- getF n f;
  match mfind w (fwr x) with
  | None => Ok (n, false)
  | Some p => do n1 <- eraseWriter n f w; Ok (n1, wdel e f w)
  end.

(** setWriter, 286-308. *)
Definition setWriter (n : net) (e : env) (f w : Z) : res (net * bool) :=
  do x <- getF n f;
  if fmaxW x <=? length (fwr x) then Ok (n, false)
  else if mmem w (fwr x) then Ok (n, false)
  else if wcfg e f w then Ok (putF n f (setWr x (mset w None (fwr x))), true)
  else Ok (n, false).

(** setReader, 123-139: if the filter class refuses, NULL is stored all the same. *)
Definition setReader (n : net) (e : env) (g r : Z) : res (net * option nat) :=
  do x <- getF n g;
  if (fmaxR x <=? length (frd x)) || mmem r (frd x) then Ok (n, None)
  else if rcfg e g r then
    let o := length (rds n) in
    Ok (mkNet (mset g (setRd x (mset r (Some o) (frd x))) (fs n)) (rds n ++ [mkR None []]) (qs n), Some o)
  else Ok (putF n g (setRd x (mset r None (frd x))), None).

(** connect, 321-364. *)
Definition connect (n : net) (e : env) (f w g r : Z) : res (net * bool) :=
  if (f =? g)%Z then Bad Deadlock           (* R->getReader takes the mutex connect holds *)
  else
  do y <- getF n g;
  do busy <- (match mfind r (frd y) with
              | Some (Some o) => readerConnected n (Some o)
              | _ => Ok false
              end);
  if busy then Ok (n, false)
  else
  do (n1, b) <- setWriter n e f w;
  if negb b then Ok (n1, false)
  else if negb (aq e f) then
    do (n2, _) <- deleteWriter n1 e f w; Ok (n2, false)
  else
  let q := length (qs n1) in
  let n2 := mkNet (fs n1) (rds n1) (qs n1 ++ [mkQ true false (f, w) [(g, r)]]) in
  do (n3, o) <- setReader n2 e g r;
  match o with
  | None => do (n4, _) <- deleteWriter n3 e f w; Ok (n4, false)
  | Some o =>
      do x <- getF n3 f;
      let n4 := putF n3 f (setWr x (mset w (Some q) (fwr x))) in
      (* Reader::setConnection 178-192, then queue->setConnected(true) *)
      let n5 := putR n4 o (mkR (Some q) [g]) in
      do z <- getQ n5 q;
      Ok (putQ n5 q (mkQ true true (qwr z) (qrd z)), true)
  end.

(** generateReaderID / generateWriterID, 141-171: 1 for filters with a single
    reader (writer), otherwise a random number that is not in use (every such number
    is a possible choice of the environment). *)
Definition fresh {A} (m : zmap A) (c : N) : Z :=
  if mmem (Z.of_N c) m then (1 + fold_right Z.max 0 (mkeys m))%Z else Z.of_N c.
(* Filter.cpp 141-155 *)
Definition generateReaderID (n : net) (e : env) (f : Z) : res Z :=
  do x <- getF n f; Ok (if fmaxR x =? 1 then DEFAULT_ID else fresh (frd x) (rndR e f)).
(* Filter.cpp 157-171 *)
Definition generateWriterID (n : net) (e : env) (f : Z) : res Z :=
  do x <- getF n f; Ok (if fmaxW x =? 1 then DEFAULT_ID else fresh (fwr x) (rndW e f)).

(** isWConnected 52-61, isRConnected 97-106. *)
Definition isWConnected (n : net) (f w : Z) : res bool :=
  do x <- getF n f;
  match mfind w (fwr x) with None => Ok false | Some p => ptrConnected n p end.
(* Filter.cpp 97-106 *)
Definition isRConnected (n : net) (f r : Z) : res bool :=
  do x <- getF n f;
  match mfind r (frd x) with None => Ok false | Some p => readerConnected n p end.

(** shareReader, 252-284: f lends its reader to g. No check of g's limit. *)
Definition shareReader (n : net) (e : env) (f orgR g shR : Z) : res (net * bool) :=
  if (f =? g)%Z then Ok (n, false)
  else
  do x <- getF n f;
  match mfind orgR (frd x) with
  | None => Ok (n, false)
  | Some p =>
      do c <- readerConnected n p;
      if negb c then Ok (n, false)
      else
      do d <- isRConnected n g shR;
      if d then Ok (n, false)
      else if negb (rcfg e g shR) then Ok (n, false)
      else
      do y <- getF n g;
      let old := match mfind shR (frd y) with Some z => z | None => None end in
      do n1 <- releaseReader (putF n g (setRd y (mset shR p (frd y)))) old;
      (* Reader::addReader 60-68 *)
      match p with
      | None => Bad NullDeref
      | Some o =>
          do z <- getR n1 o;
          match rq z with
          | None => Ok (n1, true)
          | Some q =>
              do k <- getQ n1 q;
              if qconn k && negb (existsb (fun ab => (fst ab =? g)%Z) (qrd k)) then
                Ok (putR (putQ n1 q (mkQ true (qconn k) (qwr k) (qrd k ++ [(g, shR)]))) o
                      (mkR (rq z) (if existsb (Z.eqb g) (rfs z) then rfs z else rfs z ++ [g])), true)
              else Ok (n1, true)
          end
      end
  end.

(** A worker's pass over dead writers: demandDestinationFrames 173-199. *)
Fixpoint sweepWriters (n : net) (e : env) (f : Z) (ws : list Z) : res net :=
  match ws with
  | [] => Ok n
  | w :: t =>
      do x <- getF n f;
      match mfind w (fwr x) with
      | None => sweepWriters n e f t
      | Some p =>
          do c <- ptrConnected n p;
          if c then sweepWriters n e f t
          else do (n1, _) <- dropQueue n p;
               let n2 := putF n1 f (setWr x (mset w None (fwr x))) in
               do (n3, _) <- deleteWriter n2 e f w;
               sweepWriters n3 e f t
      end
  end.

(** And over dead readers: demandOriginFramesBestEffort 636-641 (NULL entries were
    filtered out by framesSync 582-585) or demandOriginFramesFrameTime 669-674. *)
Fixpoint sweepReaders (n : net) (e : env) (f : Z) (timed : bool) (rs : list Z) : res net :=
  match rs with
  | [] => Ok n
  | r :: t =>
      do x <- getF n f;
      match mfind r (frd x) with
      | None => sweepReaders n e f timed t
      | Some None => if timed then Bad NullDeref else sweepReaders n e f timed t
      | Some (Some o) =>
          do c <- readerConnected n (Some o);
          if c then sweepReaders n e f timed t
          else do (n1, _) <- deleteReader n e f r; sweepReaders n1 e f timed t
      end
  end.

(** ~BaseFilter, 39-50: every reader is disconnected, then the maps are cleared. *)
Fixpoint dropReaders (n : net) (f : Z) (l : zmap (option nat)) : res net :=
  match l with
  | [] => Ok n
  | (k, Some o) :: t => if (0 <=? k)%Z then do (n1, _) <- readerDisconnect n o f; dropReaders n1 f t else dropReaders n f t
  | (_, None) :: t => dropReaders n f t
  end.
(* Filter.cpp 48-49: the maps are cleared. *)
Fixpoint clearReaders (n : net) (l : zmap (option nat)) : res net :=
  match l with
  | [] => Ok n
  | (_, p) :: t => do n1 <- releaseReader n p; clearReaders n1 t
  end.
(* Filter.cpp 48-49: the maps are cleared. *)
Fixpoint clearWriters (n : net) (f : Z) (ws : list Z) : res net :=
  match ws with
  | [] => Ok n
  | w :: t => do n1 <- eraseWriter n f w; clearWriters n1 f t
  end.
(* Filter.cpp 39-50. *)
Definition destroyFilter (n : net) (f : Z) : res net :=
  do x <- getF n f;
  do n1 <- dropReaders n f (frd x);
  do n2 <- clearReaders (putF n1 f (setRd x [])) (frd x);
  do n3 <- clearWriters n2 f (mkeys (fwr x));
  Ok (mkNet (mdel f (fs n3)) (rds n3) (qs n3)).
