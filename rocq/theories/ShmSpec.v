(** What a process reading shared memory should find (documentation of the layout in SharedMemory.hh and the unit
    test reader, unitTests/modules/sharedMemory/SharedMemoryDummyReader.cpp). A copy starts at offset 2 of the
    segment. *)
From Verif Require Import Base Bytes ShmModel.
Local Open Scope list_scope.
Local Open Scope Z_scope.

Definition u16 (off : nat) (r : bytes) : Z := rdle (sub off 2 r).
Definition u32 (off : nat) (r : bytes) : Z := rdle (sub off 4 r).
Definition copySeq (r : bytes) : Z := u16 0 r.
Definition copyPix (r : bytes) : pix := pixOf (u16 2 r).
Definition copyCodec (r : bytes) : vcodec := codecOf (u16 4 r).
Definition copyHeight (r : bytes) : Z := u16 6 r.
Definition copyWidth (r : bytes) : Z := u16 8 r.
Definition copyTime (r : bytes) : Z := u32 10 r * 1000000 + u32 14 r.
Definition copyLength (r : bytes) : Z := u32 18 r.
Definition payload (r : bytes) : bytes := skipn 22 r.

(** The header of the copy [r] is that of frame [f]: sequence number modulo 2^16. *)
Definition headerOf (r : bytes) (f : vframe) : Prop :=
  copySeq r = vSeq f mod 2 ^ 16 /\ copyPix r = vPix f /\ copyCodec r = vCodec f /\ copyHeight r = vH f /\ copyWidth r = vW f /\ copyTime r = vTime f.
(** The copy [r] is frame [f]. *)
Definition shows (r : bytes) (f : vframe) : Prop := headerOf r f /\ copyLength r = len (vData f) /\ payload r = vData f.
(** Sizes and times for which the header has room. *)
Definition fits (f : vframe) : Prop := 0 <= vH f < 2 ^ 16 /\ 0 <= vW f < 2 ^ 16 /\ 0 <= vTime f < 2 ^ 32 * 1000000.

Inductive subseq {A : Type} : list A -> list A -> Prop :=
| sub_nil : subseq [] []
| sub_skip x l m : subseq l m -> subseq l (x :: m)
| sub_take x l m : subseq l m -> subseq (x :: l) (x :: m).

(** H.264 input: one frame per NAL unit; a picture is an access unit delimiter followed by its other units. *)
Definition nalFrame (f : vframe) (n : bytes) : Prop := vCodec f = H264 /\ n <> [] /\ (vData f = [0; 0; 1] ++ n \/ vData f = [0; 0; 0; 1] ++ n).
Definition nalType (n : bytes) : Z := match n with [] => -1 | x :: _ => Z.land x 31 end.
(** The units of a picture with the frames that carry them. *)
Record picture := mkPic { pAud : vframe; pFirst : vframe * bytes; pRest : list (vframe * bytes) }.
Definition units (p : picture) : list (vframe * bytes) := pFirst p :: pRest p.
Definition wfPicture (p : picture) : Prop :=
  (exists n, nalFrame (pAud p) n /\ nalType n = 9) /\ Forall (fun '(f, n) => nalFrame f n /\ In (nalType n) [1; 5; 6; 7; 8]) (units p).
Definition framesOf (p : picture) : list vframe := pAud p :: map fst (units p).
(** The picture in Annex B format. *)
Definition annexB (p : picture) : bytes := concat (map (fun '(_, n) => [0; 0; 0; 1] ++ n) (units p)).
(** Consecutive pictures have different sequence numbers. *)
Definition seqOf (p : picture) : Z := vSeq (fst (pFirst p)).
Fixpoint differ (ps : list picture) : Prop := match ps with p :: ((q :: _) as r) => seqOf q <> seqOf p mod 2 ^ 16 /\ differ r | _ => True end.
(** Neighbouring pictures. *)
Fixpoint pairs {A} (l : list A) : list (A * A) := match l with a :: ((b :: _) as r) => (a, b) :: pairs r | _ => [] end.
