(** Vocabulary of the sliced video queue, shared by model and specification. *)
From Coq Require Import List ZArith.
Import ListNotations.

(** What a picture carries besides its data: sequence number, presentation, decode
    and origin time, width and height. *)
Record pmeta := mkMeta { pseq : Z; ppts : Z; pdts : Z; porg : Z; pw : Z; ph : Z }.

Inductive sreq (B : Type) :=
| Offer                     (* writer: may I fill a picture? (getRear) *)
| ForceOffer                (* the same, never refused (forceGetRear) *)
| AddSlice (d : list B)     (* one more slice of the picture (setSlice) *)
| Publish (m : pmeta)       (* the picture is complete (addFrame) *)
| PeekS | RemoveS | CountS | LostS.
Arguments Offer {B}. Arguments ForceOffer {B}. Arguments AddSlice {B}. Arguments Publish {B}.
Arguments PeekS {B}. Arguments RemoveS {B}. Arguments CountS {B}. Arguments LostS {B}.

Inductive sans (B : Type) :=
| Yes (b : bool)
| Readers (l : list Z)
| Piece (f : option (pmeta * list B))
| Who (z : Z)
| Amount (n : nat).
Arguments Yes {B}. Arguments Readers {B}. Arguments Piece {B}. Arguments Who {B}. Arguments Amount {B}.
