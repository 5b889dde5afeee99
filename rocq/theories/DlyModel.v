(** Model of the delay statistics of a reader (Reader::measureDelay, src/IOInterface.cpp 140-162, with the fields of
    src/IOInterface.hh 222-227) and of what the state of a path reports of it (src/PipelineManager.cpp 511-521).
    Times are microseconds, exact (64-bit overflow of sums is not modelled). *)
From Verif Require Import Base.
Local Open Scope list_scope.
Local Open Scope Z_scope.

(** Model's own: unsigned and signed arithmetic. *)
Definition u64 (z : Z) : Z := z mod 18446744073709551616.
(** Model's own: unsigned and signed arithmetic. *)
Definition s64 (z : Z) : Z := (z + 9223372036854775808) mod 18446744073709551616 - 9223372036854775808.
(** Model's own: unsigned and signed arithmetic. *)
Definition s32 (z : Z) : Z := (z + 2147483648) mod 4294967296 - 2147483648.

(** IOInterface.hh 222-227. *)
Record stats := mkStats { avgDelay : Z; delay : Z; lastTs : Z; timeCounter : Z; frameCounter : Z }.
(** The constructor, IOInterface.cpp 32-36. *)
Definition stats0 : stats := mkStats 0 0 (-1) 0 0.

(** measureDelay 140-162 for a frame with time [ts] (getFrameTime) that left its origin [d] microseconds ago.
    frameCounter is a size_t, so the division in 154 is one of unsigned numbers. *)
Definition measureDelay (W : Z) (ts d : Z) (s : stats) : stats :=
  let last := if lastTs s <? 0 then ts else lastTs s in
  if last =? ts then mkStats (avgDelay s) (delay s) last (timeCounter s) (frameCounter s)
  else
    let tc := timeCounter s + (ts - last) in
    if (W <=? tc) && (0 <? frameCounter s)
    then mkStats (s64 (u64 (delay s) / u64 (frameCounter s))) d ts 0 1
    else mkStats (avgDelay s) (delay s + d) ts tc (frameCounter s + 1).
(** Model's own: one frame after another. *)
Definition measureAll (W : Z) (fs : list (Z * Z)) (s : stats) : stats := fold_left (fun s f => measureDelay W (fst f) (snd f) s) fs s.

(** Reader::getAvgDelay 164-169; a filter without the reader answers -1 (BaseFilter::getAvgReaderDelay, Filter.cpp
    75-84); PipelineManager.cpp 513 casts to int. *)
Definition reportDelay (s : option stats) : Z := s32 (match s with Some s => avgDelay s | None => -1 end).
(** PipelineManager.cpp 500-521: the losses counted by the queues that the destination and the filters of the path
    read. A filter that does not exist, or a reader without a queue, counts as 0 (Filter.cpp 86-95, IOInterface.cpp
    171-176). *)
Definition reportLost (dst : option Z) (mids : list (option Z)) : Z :=
  s32 (fold_left (fun a o => u64 (a + match o with Some n => n | None => 0 end)) mids (match dst with Some n => u64 n | None => 0 end)).
