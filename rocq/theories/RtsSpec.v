(** What C67 is about: which connection a client gets under a name. *)
From Coq Require Import String.
From Verif Require Import Base ZMap RtsModel.
Local Open Scope list_scope.
Local Open Scope Z_scope.

(** Connection [id] is registered under the name [n], with these readers. *)
Definition registered (id : Z) (n : string) (rs : list Z) (s : rts) : Prop :=
  exists c, mfind id (rcon s) = Some c /\ cname c = n /\ creads c = rs.
(** A client that asks for [n] gets connection [id]. *)
Definition leadsTo (n : string) (id : Z) (s : rts) : Prop :=
  exists c, mfind id (rcon s) = Some c /\ lookup n (rtab s) = Some (csess c).
(** A client that asks for [n] is refused. *)
Definition unknown (n : string) (s : rts) : Prop := lookup n (rtab s) = None.
(** The clients connection [id] has. *)
Definition clients (id : Z) (s : rts) : Z :=
  match mfind id (rcon s) with
  | Some c => match mfind (csess c) (rses s) with Some x => sclients x | None => 0 end
  | None => 0
  end.
(** No request for a new identifier asks for a name in use. *)
Definition freshNames (os : list op) : Prop := forall a v id n rs b s,
  os = a ++ Add v id n rs :: b -> run a newRts = Some s ->
  (forall id' rs', ~ registered id' n rs' s) \/ (exists n' rs', registered id n' rs' s) \/ rs = [].
