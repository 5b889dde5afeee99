(** Property theorems C09: the sliced video queue. *)
From Verif Require Import Base RingModel SlicedIface SlicedModel SlicedSpec SlicedProofs.

(** C09. A sliced queue of two or more slots answers every history like the bounded
    list of pieces: each slice becomes a piece of its own with its bytes and the
    picture's metadata, in order; when space runs out the lost pieces are counted;
    and no slice that fits the buffers is written out of bounds. *)
Theorem sliced_queue_delivers_slices_in_order :
  forall (B : Type) (n size : nat) (w : Z) (ids : list Z) (blank : pmeta * list B) (rs : list (sreq B)),
  2 <= n -> 1 <= size -> slices_fit size rs ->
  exists s0 s, createSliced n size w ids blank = SOk s0 /\
    srun s0 rs = SOk (s, snd (p_run (p_init (Nat.min n 250 - 1) w ids) rs)).
Proof. exact (@sliced_refines). Qed.
Print Assumptions sliced_queue_delivers_slices_in_order.

(** A queue of no slots, or of slots of no bytes, is not made. *)
Theorem sliced_queue_needs_space :
  forall (B : Type) (n size : nat) (w : Z) (ids : list Z) (blank : pmeta * list B),
  n = 0 \/ size = 0 <-> createSliced n size w ids blank = Rejected.
Proof.
  intros. unfold createSliced. destruct (Nat.eqb_spec n 0); destruct (Nat.eqb_spec size 0); cbn [orb]; split; intros; try reflexivity; try discriminate; tauto.
Qed.
Print Assumptions sliced_queue_needs_space.

Definition m1 := mkMeta 1 10 9 8 640 480.
Definition m2 := mkMeta 2 20 19 18 640 480.

Example sliced_ex :
  slices_fit 3 [AddSlice [1;2]; AddSlice [3]; Publish m1; AddSlice [4;5;6]; AddSlice [7]; Publish m2] /\
  snd (p_run (p_init 3 7 [8%Z])
    [Offer; AddSlice [1;2]; AddSlice [3]; Publish m1; CountS; AddSlice [4;5;6]; AddSlice [7]; Publish m2;
     LostS; Offer; PeekS; RemoveS; PeekS; RemoveS; PeekS; RemoveS; PeekS; RemoveS])
  = [Yes true; Yes true; Yes true; Readers [8%Z]; Amount 2; Yes true; Yes true; Readers [8%Z];
     Amount 1; Yes false; Piece (Some (m1, [1;2])); Who 7; Piece (Some (m1, [3])); Who 7;
     Piece (Some (m2, [7])); Who 7; Piece None; Who (-1)].
Proof. split; [repeat constructor|reflexivity]. Qed.

(** C09: publishing keeps all pieces that were waiting, except possibly the newest. *)
Theorem sliced_queue_keeps_earlier_pieces_partial :
  forall (B : Type) (n : nat) (old new : list (pmeta * list B)),
  1 <= n -> length old <= n ->
  exists rest, keep n old new = firstn (n - 1) old ++ rest /\ length (keep n old new) = Nat.min n (length old + length new).
Proof.
  intros B n old new Hn Ho. unfold keep. rewrite app_length.
  destruct (Nat.leb_spec (length old + length new) n) as [H|H].
  - exists (skipn (n - 1) old ++ new). rewrite app_assoc, firstn_skipn, app_length. split; [reflexivity|lia].
  - rewrite firstn_app. eexists. rewrite <- app_assoc. split; [reflexivity|].
    rewrite !app_length, skipn_length, !firstn_length, !app_length. lia.
Qed.
Print Assumptions sliced_queue_keeps_earlier_pieces_partial.

(** "Frames committed earlier are kept" fails for the newest one: a full queue gives
    up the last slice of the previous picture for the next picture's last slice. *)
Theorem sliced_queue_drops_earlier_piece_refuted :
  exists s0 s, createSliced 3 9 7 [8%Z] (m1, [0]) = SOk s0 /\
    srun s0 [AddSlice [1]; AddSlice [2]; Publish m1; AddSlice [3]; Publish m2; PeekS; RemoveS; PeekS]
    = SOk (s, [Yes true; Yes true; Readers [8%Z]; Yes true; Readers [8%Z];
               Piece (Some (m1, [1])); Who 7; Piece (Some (m2, [3]))]).
Proof. do 2 eexists. vm_compute. split; reflexivity. Qed.
Print Assumptions sliced_queue_drops_earlier_piece_refuted.

(** A slice longer than the buffers (they hold MAX_H264_OR_5_NAL_SIZE bytes) is copied
    past the end of the buffer. *)
Theorem sliced_queue_long_slice_refuted :
  forall (B : Type) (n size : nat) (w : Z) (ids : list Z) (blank : pmeta * list B) (d : list B) (m : pmeta),
  2 <= n -> 1 <= size -> size < length d ->
  exists s0, createSliced n size w ids blank = SOk s0 /\ srun s0 [AddSlice d; Publish m] = Overflow.
Proof.
  intros B n size w ids blank d m Hn Hs Hd. unfold createSliced.
  destruct (Nat.eqb_spec n 0) as [|_]; [lia|]. destruct (Nat.eqb_spec size 0) as [|_]; [lia|]. cbn [orb].
  eexists. split; [reflexivity|].
  cbn [srun sstep setSlice sin length MAX_SLICES Nat.leb app pushSlices sring ssize].
  unfold pushSlice, getRear, newRing. cbn [rmax rrear rfront plus].
  set (k := if MAX_FRAMES <? n then MAX_FRAMES else n).
  assert (Hk : 2 <= k). { unfold k, MAX_FRAMES. destruct (Nat.ltb_spec 250 n); lia. }
  destruct (Nat.eqb_spec k 0); [lia|]. rewrite Nat.mod_small by lia. cbn [Nat.eqb].
  destruct (Nat.ltb_spec size (length d)); [reflexivity|lia].
Qed.
Print Assumptions sliced_queue_long_slice_refuted.

(** A one-slot sliced queue is accepted by createNew and never stores anything: the
    first picture does not return. *)
Theorem sliced_queue_one_slot_refuted :
  exists s0, createSliced 1 9 7 [8%Z] (m1, [0]) = SOk s0 /\ srun s0 [AddSlice [1]; Publish m1] = Stuck.
Proof. eexists. vm_compute. split; reflexivity. Qed.
Print Assumptions sliced_queue_one_slot_refuted.
