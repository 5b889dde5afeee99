(** Reading the connections between the filters of a pipeline. *)
From Verif Require Import Base ZMap NetModel PipeModel PipeSpec.

(** The filters a queue tells of every frame put into it: those of its connection data
    (AVFramedQueue::addFrame, AVFramedQueue.cpp 65-81; the answer goes through Writer::addFrame,
    IOInterface.cpp 337-340, and addFrames, Filter.cpp 201-217, to the scheduler). *)
Definition told (k : queueo) : list Z := map fst (qrd k).

(** From output w of filter f, through the filters of a list, in their order, to input r of
    filter g: every one feeds the next. *)
Inductive line (n : net) : Z -> Z -> list Z -> Z -> Z -> Prop :=
| line_last f w g r : connected n f w g r -> line n f w [] g r
| line_mid f w m r0 w0 t g r : connected n f w m r0 -> line n m w0 t g r -> line n f w (m :: t) g r.
