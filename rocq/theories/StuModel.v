(* The conversation with an RTSP server: the description of a session is asked
   for, each of its streams is set up, and it is played.

   Modelled:
     src/modules/receiver/Handlers.cpp  lines 46-97, 99-185, 187-214, 227-291
        (when keep-alive requests are sent is SessModel's)
     src/modules/receiver/SourceManager.cpp  lines 158-193 (removeSession),
        204-219 (addSink), 531-576 (the request), 664-700 (statistics)

   Simplifications.
   - live555 is an oracle: what a description says, whether a stream can be
     received (initiate), at which port, and how the server answers. A
     stream that is de-initiated loses its source, which its sink goes on
     pointing to.
   - A session stands for a Session object, not for its name: it is opened
     once. Outputs are not connected (RcvModel has what happens then).
   - The duration of a session, a double, is an exact rational. *)
From Coq Require Import ZArith QArith Qround List Bool.
From Verif Require Import ZMap.
Import ListNotations.
Local Open Scope list_scope.
Local Open Scope Z_scope.

(* A stream of a description: whether initiate succeeds (Handlers.cpp 194)
   and its client port *)
Record stream := mkS { starts : bool; sport : Z }.

(* What is said: the requests of Handlers.cpp 202, 209-212, 224, 285 and
   SourceManager.cpp 573, 583; the result codes of 52, 107, 152 *)
Inductive request := Describe | Setup (i : nat) | Play | KeepAlive | Teardown.
(* Model's own: a request or an answer of the conversation. *)
Inductive msg := Ask (r : request) | Answer (ok : bool).

(* Where the conversation is: the answer awaited; the stream being set up and
   those to come (scs.subsession, scs.iter); playing with the delay of
   streamTimerTask; shut down, the client being closed; removed.
   Handlers.cpp 46-291 *)
Inductive phase :=
| PDescribe | PSetup (i : nat) (x : stream) (rest : list (nat * stream)) | PPlay | PPlaying (timer : option Z) | PClosed | PGone.

(* A session: its streams; its duration (0 with absolute times, Handlers.cpp
   208-211); what was said; the streams whose sink is not NULL; those whose
   source was closed under the sink; those whose sink was closed behind the
   session's back; the ports with statistics; whether it is to be kept
   alive, and whether sessionTimeoutBrokenServerTask is set;
   SourceManager.hh 94-117 *)
Record conv := mkConv { ph : phase; streams : list stream; dur : Q; log : list msg;
  sinks : list nat; orphans : list nat; dead : list nat; stats : list Z; keep : bool; alarm : bool }.

(* The receiver: SourceManager::sinks (whose stream has a port) and the
   sessions; SourceManager.hh 183-188 *)
Record rx := mkRx { reg : zmap (Z * nat); convs : zmap conv }.
(* Nothing is received: SourceManager.cpp 103-111 *)
Definition rx0 : rx := mkRx [] [].

(* What becomes of the program: it goes on, it uses memory that is not there
   or no longer there (Handlers.cpp 273, SourceManager.cpp 168, 583), or what
   happens is undefined (Handlers.cpp 160) *)
Inductive outcome := Fine (s : rx) | Crash | Undefined.

(* Whether sink is not NULL, Handlers.cpp 272; sink = NULL, 84; the order of
   the iterator, 192; a request sent, 202, 212; what the client awaits, 202, 212 *)
Definition isIn (i : nat) (l : list nat) : bool := existsb (Nat.eqb i) l.
(* Handlers.cpp 84: the sink of a stream is forgotten. *)
Definition drop (i : nat) (l : list nat) : list nat := filter (fun j => negb (Nat.eqb i j)) l.
(* Handlers.cpp 192: streams in the order of the iterator. *)
Definition numbered (l : list stream) : list (nat * stream) := combine (seq 0 (List.length l)) l.
(* Model's own: a message is added to the conversation; its next phase. *)
Definition say (m : list msg) (c : conv) : conv :=
  mkConv (ph c) (streams c) (dur c) (log c ++ m) (sinks c) (orphans c) (dead c) (stats c) (keep c) (alarm c).
(* Model's own: a message is added to the conversation; its next phase. *)
Definition to_ (p : phase) (c : conv) : conv :=
  mkConv p (streams c) (dur c) (log c) (sinks c) (orphans c) (dead c) (stats c) (keep c) (alarm c).

(* SourceManager.cpp 622-630 and 572-575 *)
Definition conv0 (k : bool) : conv := mkConv PDescribe [] 0 [Ask Describe] [] [] [] [] k false.

(* Handlers.cpp 187-214: setupNextSubsession *)
Fixpoint next (c : conv) (rest : list (nat * stream)) : conv :=
  match rest with
  | [] => to_ PPlay (say [Ask Play] c)
  | (i, x) :: r => if starts x then to_ (PSetup i x r) (say [Ask (Setup i)] c) else next c r
  end.

(* Closing a sink stops its source: SourceManager.cpp 172, Handlers.cpp 83, 273 *)
Definition closable (c : conv) (i : nat) : bool := isIn i (sinks c) && negb (isIn i (orphans c)) && negb (isIn i (dead c)).

(* Handlers.cpp 260-291: shutdownStream *)
Definition shutdown (c : conv) : option conv :=
  if forallb (closable c) (sinks c)
  then Some (mkConv PClosed (streams c) (dur c) (log c ++ match sinks c with [] => [] | _ => [Ask Teardown] end) [] (orphans c) (dead c) (stats c) (keep c) (alarm c))
  else None.

(* Handlers.cpp 46-77 and, for how long it lasts, 208-213: [d] is None if the server failed or the description
   cannot be read; otherwise its streams, whether it has absolute times, and
   how long it lasts *)
Definition described (d : option (list stream * bool * Q)) (c : conv) : option conv :=
  match d with
  | None => shutdown (say [Answer false] c)
  | Some (l, abs, t) =>
    let c1 := mkConv (ph c) l (if abs then 0 else t)%Q (log c ++ [Answer true]) (sinks c) (orphans c) (dead c) (stats c) (keep c) (alarm c) in
    match l with [] => shutdown c1 | _ => Some (next c1 (numbered l)) end
  end.

(* Handlers.cpp 99-142, SourceManager.cpp 204-219 and 664-687: [sid] is the
   session *)
Definition setUp (sid : Z) (ok : bool) (i : nat) (x : stream) (rest : list (nat * stream)) (c : conv) (r : zmap (Z * nat)) : conv * zmap (Z * nat) :=
  let c0 := say [Answer ok] c in
  if ok then
    let p := sport x in
    let taken := mmem p r in
    let counted := negb (existsb (Z.eqb p) (stats c)) && negb taken in
    (next (mkConv (ph c0) (streams c0) (dur c0) (log c0) (i :: sinks c0) (if counted then orphans c0 else i :: orphans c0) (dead c0)
                  (if counted then p :: stats c0 else stats c0) (keep c0) (alarm c0)) rest,
     if taken then r else mset p (sid, i) r)
  else (next c0 rest, r).

(* Handlers.cpp 144-185: the delay of the timer is converted to unsigned *)
Definition delay (d : Q) : option (option Z) :=
  if Qle_bool d 0 then Some None
  else let us := Qfloor ((d + 2) * 1000000) in if us <? 2 ^ 32 then Some (Some us) else None.

(* Handlers.cpp 170-176 *)
Definition setAlarm (a : bool) (c : conv) : conv :=
  mkConv (ph c) (streams c) (dur c) (log c) (sinks c) (orphans c) (dead c) (stats c) (keep c) a.

(* SourceManager.cpp 168-183: the loop of removeSession *)
Fixpoint removeAll (sid : Z) (l : list stream) (s : rx) : option rx :=
  match l with
  | [] => Some s
  | x :: r =>
    match mfind (sport x) (reg s) with
    | None => removeAll sid r s
    | Some (o, j) =>
      match mfind o (convs s) with
      | Some co =>
        if closable co j then
          let co1 := mkConv (ph co) (streams co) (dur co) (log co) (sinks co) (orphans co) (j :: dead co) (stats co) (keep co) (alarm co) in
          let s1 := mkRx (mdel (sport x) (reg s)) (mset o co1 (convs s)) in
          removeAll sid r
            (match mfind sid (convs s1) with
             | Some c => mkRx (reg s1) (mset sid (mkConv (ph c) (streams c) (dur c) (log c) (sinks c) (orphans c) (dead c)
                                                        (filter (fun p => negb (p =? sport x)) (stats c)) (keep c) (alarm c)) (convs s1))
             | None => s1
             end)
        else None
      | None => None
      end
    end
  end.
(* SourceManager.cpp 158-193, of a session whose name is known: without a
   description line 168 dereferences NULL, without a client line 583 uses a
   freed one *)
Definition removeSession (sid : Z) (c : conv) (s : rx) : outcome :=
  match ph c with
  | PDescribe | PClosed => Crash
  | PGone => Fine s
  | _ => match removeAll sid (streams c) s with
         | None => Crash
         | Some s1 => match mfind sid (convs s1) with
                      | Some c1 => Fine (mkRx (reg s1) (mset sid (mkConv PGone (streams c1) (dur c1) (log c1 ++ [Ask Teardown]) [] (orphans c1) [] (stats c1) (keep c1) false) (convs s1)))
                      | None => Fine s1
                      end
         end
  end.

(* What can happen to a session: it is asked for; the answers; the timer of
   its end; the alarm for the next keep-alive request (Handlers.cpp 236-258),
   which uses the client; the server ends a stream (Handlers.cpp 79-97); its removal.
   Events that cannot happen now do nothing. *)
Inductive event := Open (keepAlive : bool) | Described (d : option (list stream * bool * Q)) | SetUp (ok : bool) | Played (ok : bool) | Expired | Alarm | Bye (i : nat) | Remove.
(* Model's own: what happens to the sessions of a receiver. *)
Definition update (sid : Z) (o : option conv) (s : rx) : outcome :=
  match o with Some c => Fine (mkRx (reg s) (mset sid c (convs s))) | None => Crash end.
(* Model's own: what happens to the sessions of a receiver. *)
Definition step (s : rx) (x : Z * event) : outcome :=
  let '(sid, e) := x in
  match mfind sid (convs s) with
  | None => match e with Open k => update sid (Some (conv0 k)) s | _ => Fine s end
  | Some c =>
    match e, ph c with
    | Described d, PDescribe => update sid (described d c) s
    | SetUp ok, PSetup i x rest => let '(c1, r) := setUp sid ok i x rest c (reg s) in Fine (mkRx r (mset sid c1 (convs s)))
    | Played false, PPlay => update sid (shutdown (say [Answer false] c)) s
    | Played true, PPlay => match delay (dur c) with
                            | Some o => update sid (Some (setAlarm (keep c) (to_ (PPlaying o) (say [Answer true] c)))) s
                            | None => Undefined
                            end
    | Expired, PPlaying (Some _) => update sid (shutdown c) s
    | Alarm, _ => if alarm c
                  then match ph c with PClosed => Crash | _ => update sid (Some (say [Ask KeepAlive] c)) s end
                  else Fine s
    | Bye i, _ => if isIn i (sinks c)
                  then if closable c i
                       then update sid (Some (mkConv (ph c) (streams c) (dur c) (log c) (drop i (sinks c)) (orphans c) (dead c) (stats c) (keep c) (alarm c))) s
                       else Crash
                  else Fine s
    | Remove, _ => removeSession sid c s
    | _, _ => Fine s
    end
  end.
(* Model's own: what happens to the sessions of a receiver. *)
Fixpoint run (s : rx) (l : list (Z * event)) : outcome :=
  match l with
  | [] => Fine s
  | x :: r => match step s x with Fine s1 => run s1 r | o => o end
  end.
