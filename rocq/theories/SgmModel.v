(** Model of how segments of shared memory are made and removed: src/modules/sharedMemory/SharedMemory.cpp 29-111.

    Simplified: what is in a segment is ShmModel's. size_t has 64 bits, unsigned and key_t 32. The kernel is its contract
    (shmget(2), shmop(2), shmctl(2)): shmget with IPC_EXCL refuses a key that is in use, key 0 (IPC_PRIVATE) never is; it gives an
    identifier from 0 to 2^31 - 1 that no segment has, or fails; a segment that is removed loses its key at once and goes with its
    last attachment. Other processes remove only segments they made. *)
From Verif Require Import Base.
Local Open Scope list_scope.
Local Open Scope Z_scope.

(** A segment: its identifier, the key it is found by, if there is one, whether this process made it, whether it is removed, and the attachments
    of this process and of others. *)
Record seg := mkSeg { sid : Z; skey : option Z; mine : bool; marked : bool; ours : nat; others : nat }.
(** sharedMemoryId and sharedMemoryKey, SharedMemory.hh 132-133; [fname] tells filters apart. *)
Record filt := mkFil { fname : nat; fid : Z; fkey : Z }.
(** The segments there are, the filters there are, and the filters made so far. *)
Record world := mkW { segs : list seg; filts : list filt; made : nat }.
(** Model's own: at first there are segments of others only. *)
Definition nothing : world := mkW [] [] 0.

(** shmget(2): the key as it is found by; 0 is IPC_PRIVATE. *)
Definition keyOf (k : Z) : option Z := if k =? 0 then None else Some k.
(** shmget(2). *)
Definition hasKey (k : Z) (s : seg) : bool := match skey s with Some x => x =? k | None => false end.
(** shmget(2), as called at SharedMemory.cpp 66; [ans]: the identifier the kernel would give. *)
Definition shmget (own : bool) (k : Z) (ans : option Z) (l : list seg) : Z * list seg :=
  match ans with
  | Some i => if negb (k =? 0) && existsb (hasKey k) l || existsb (fun s => sid s =? i) l || (i <? 0) || (2 ^ 31 <=? i) then (-1, l)
              else (i, mkSeg i (keyOf k) own false 0 0 :: l)
  | None => (-1, l)
  end.
(** Model's own: a change of the segment [i]. *)
Definition onSeg (i : Z) (g : seg -> seg) (l : list seg) : list seg := map (fun s => if sid s =? i then g s else s) l.
(** shmctl(2): a removed segment that nobody is attached to is gone. *)
Definition kept (s : seg) : bool := negb (marked s && (ours s =? 0)%nat && (others s =? 0)%nat).
(** shmop(2): shmat by this process, as at SharedMemory.cpp 74. *)
Definition attach (s : seg) : seg := mkSeg (sid s) (skey s) (mine s) (marked s) (S (ours s)) (others s).
(** shmctl(2), IPC_RMID, as at SharedMemory.cpp 105. *)
Definition remove_ (s : seg) : seg := mkSeg (sid s) None (mine s) true (ours s) (others s).
(** shmop(2): shmdt by this process, as at SharedMemory.cpp 108. *)
Definition detach (s : seg) : seg := mkSeg (sid s) (skey s) (mine s) (marked s) (Nat.pred (ours s)) (others s).
(** shmop(2): shmat and shmdt by another process. *)
Definition comes (s : seg) : seg := mkSeg (sid s) (skey s) (mine s) (marked s) (ours s) (S (others s)).
(** shmop(2): shmat and shmdt by another process. *)
Definition goes (s : seg) : seg := mkSeg (sid s) (skey s) (mine s) (marked s) (ours s) (Nat.pred (others s)).
(** A 32 bit unsigned as an int: the argument of shmat, SharedMemory.cpp 74. *)
Definition asInt (u : Z) : Z := if u <? 2 ^ 31 then u else u - 2 ^ 32.

(** SharedMemory.cpp 54-101 and createNew 29-37: [supported]: the codec is RAW or H264 (58); [ok]: the memory can be attached. A filter that
    is not enabled is neither returned nor destroyed. Line 66 compares 32 bits with 64. *)
Definition createNew (key : Z) (supported : bool) (ans : option Z) (ok : bool) (w : world) : world * option filt :=
  if negb supported then (w, None)
  else let '(r, l) := shmget true (key mod 2 ^ 32) ans (segs w) in
       let id := r mod 2 ^ 32 in
       if id =? 2 ^ 64 - 1 then (mkW l (filts w) (made w), None)
       else if existsb (fun s => sid s =? asInt id) l && ok
       then let f := mkFil (made w) id (key mod 2 ^ 32) in
            (mkW (onSeg (asInt id) attach l) (f :: filts w) (S (made w)), Some f)
       else (mkW l (filts w) (made w), None).
(** SharedMemory.cpp 103-111. *)
Definition destroy (n : nat) (w : world) : world :=
  match find (fun f => (fname f =? n)%nat) (filts w) with
  | None => w
  | Some f => mkW (filter kept (onSeg (asInt (fid f)) detach (filter kept (onSeg (asInt (fid f)) remove_ (segs w)))))
                  (filter (fun g => negb (fname g =? n)%nat) (filts w)) (made w)
  end.
(** What can happen: createNew and the destructor here; the calls of other processes. createNew of 39-52, which the pipeline uses
    (PipelineManager.cpp 168), draws the key from 1 to 10000 and takes RAW. *)
Inductive op := Create (key : Z) (supported : bool) (ans : option Z) (ok : bool) | Destroy (n : nat)
  | TheirGet (key : Z) (ans : option Z) | TheirAttach (i : Z) | TheirDetach (i : Z) | TheirRemove (i : Z).
(** Model's own. *)
Definition step (o : op) (w : world) : world :=
  match o with
  | Create k c a ok => fst (createNew k c a ok w)
  | Destroy n => destroy n w
  | TheirGet k a => mkW (snd (shmget false (k mod 2 ^ 32) a (segs w))) (filts w) (made w)
  | TheirAttach i => mkW (onSeg i comes (segs w)) (filts w) (made w)
  | TheirDetach i => mkW (filter kept (onSeg i goes (segs w))) (filts w) (made w)
  | TheirRemove i => mkW (filter kept (onSeg i (fun s => if mine s then s else remove_ s) (segs w))) (filts w) (made w)
  end.
(** Model's own: one after the other. *)
Definition run (l : list op) (w : world) : world := fold_left (fun w o => step o w) l w.
