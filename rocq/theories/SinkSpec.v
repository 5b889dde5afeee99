(** What the bookkeeping of connections has to guarantee, independently of the code. *)
From Verif Require Import Base ZMap.
From Verif Require Export SinkModel.
Local Open Scope list_scope.
Local Open Scope Z_scope.

(** An input exists when the filter has a reader for it. *)
Definition exists_ (r : Z) (s : sinks) : Prop := exists m, mfind r (srd s) = Some (Some m).
Definition uses (c : conn) (r : Z) : Prop := In r (cused c).
(** The connection objects that can still be reached. *)
Definition live (s : sinks) : list Z := map (fun ic => cobj (snd ic)) (scon s).
