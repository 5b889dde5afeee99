(* What a user of the camera relies on: specification. *)
From Coq Require Import ZArith List Bool String.
From Verif Require Import NamesModel V4lModel.
Import ListNotations.
Local Open Scope Z_scope.

(* What is held after a log of actions on the system: open descriptors,
   mappings; whether the device is streaming. *)
Fixpoint opened (l : list ev) (held : list Z) : list Z :=
  match l with
  | [] => held
  | EvOpen _ f :: t => opened t (f :: held)
  | EvClose f :: t => opened t (remove Z.eq_dec f held)
  | _ :: t => opened t held
  end.
Fixpoint mapped (l : list ev) (held : list Z) : list Z :=
  match l with
  | [] => held
  | EvMap m :: t => mapped t (held ++ [m])
  | EvUnmap m :: t => mapped t (remove Z.eq_dec m held)
  | _ :: t => mapped t held
  end.
Fixpoint streaming (l : list ev) (on : bool) : bool :=
  match l with
  | [] => on
  | EvOn :: t => streaming t true
  | EvOff :: t => streaming t false
  | _ :: t => streaming t on
  end.

(* The names of formats a user may give; any other name means YUYV. *)
Definition names : list (string * fourcc) :=
  [("YUYV", FYuyv); ("YUV420", FYuv420); ("YUV422", FYuv422); ("RGB24", FRgb24); ("H264", FH264); ("MJPEG", FMjpeg)]%string.
Definition wanted (s : string) : fourcc :=
  match find (fun x => String.eqb (fst x) s) names with Some x => snd x | None => FYuyv end.

(* The system grants a request: a device is there and opened as [d], it
   captures in format [f], one frame every num/den seconds, with n buffers. *)
Record grants (e : env) (w h fps : Z) (format : string) (forced : bool) (d : Z) (f : pixfmt) (num den : Z) (n : nat) : Prop :=
  mkGrants {
    g_there : aFound e = true /\ aChar e = true /\ aOpen e = Some d;
    g_able : aCap e = true /\ aVideo e = true /\ aStream e = true;
    g_format : (if forced then aSet e w h (wanted format) else aGet e) = Some f;
    g_rate : aParm e fps = Some (num, den);
    g_bufs : aReq e = Some n /\ (2 <= n)%nat /\ aCalloc e = true;
    g_maps : forall i, (i < n)%nat -> aQuery e i <> None /\ aMmap e i = true;
    g_queue : forall i, (i < n)%nat -> aQbuf e i = true;
    g_on : aOn e = true
  }.

(* The system never fails to unmap. *)
Definition tidy (e : env) : Prop := forall m, aUnmap e m = true.
(* The system maps all buffers it said it has. *)
Definition mapsWell (e : env) : Prop :=
  forall n i, aReq e = Some n -> (i < n)%nat -> aQuery e i <> None /\ aMmap e i = true.

(* The log after [c] and up to [c']. *)
Definition since (c c' : cam) (l : list ev) : Prop := log c' = log c ++ l.

(* A user's calls, each with the answers of the system; None once a call has
   crashed. *)
Inductive call :=
| Configure (e : env) (name : string) (w h fps : Z) (format : string) (forced : bool)
| Release (e : env).
Definition callEnv (k : call) : env := match k with Configure e _ _ _ _ _ _ | Release e => e end.
Definition run1 (c : cam) (k : call) : option cam :=
  match k with
  | Configure e name w h fps format forced =>
    match configure c e name w h fps format forced with Ret c' _ => Some c' | Crash => None end
  | Release e => Some (fst (releaseDevice c e))
  end.
Fixpoint run (c : cam) (l : list call) : option cam :=
  match l with
  | [] => Some c
  | k :: t => match run1 c k with Some c' => run c' t | None => None end
  end.

(* Nothing is held. *)
Definition holdsNothing (c : cam) : Prop :=
  opened (log c) [] = [] /\ mapped (log c) [] = [] /\ streaming (log c) false = false.
(* The device is open and streams into buffers that are all mapped, and
   nothing else is held. *)
Definition holdsCapture (c : cam) : Prop :=
  opened (log c) [] = [fd c] /\ (2 <= List.length (bufs c))%nat
  /\ mapped (log c) [] = map bmap (bufs c) /\ streaming (log c) false = true.
