(* C58: the video decoder. *)
From Coq Require Import ZArith List Bool Lia.
From Verif Require Import NamesModel VdcModel VdcSpec VdcProofs.
From Verif Require RsmModel.
Import ListNotations.
Local Open Scope list_scope.
Local Open Scope Z_scope.

Lemma sane0 : sane vdec0.
Proof. left; reflexivity. Qed.

(* C58.  Whatever frames of offered codecs come, in whatever order, and
   whatever openings and decodings fail, the decoder does not crash, and every
   picture handed on lies in its buffer, is one the codec gave while decoding
   the frame of this round, was made by a decoder for the codec of this frame
   and has its times and sequence number. *)
Theorem C58_delivered_partial fuel rs k x :
  (forall r, In r rs -> plain r) -> nth_error (snd (run fuel vdec0 rs)) k = Some x ->
  x <> Crash /\
  forall d, x = Delivered d -> exists r, nth_error rs k = Some r /\ stampedAs (rframe r) d /\
    0 < dlen d <= RsmModel.slotSize /\ exists m len, rcalls r m = Took len (Some (mkP (dnum d) (dlen d))).
Proof.
  intros P H. destruct (run_results fuel rs vdec0 k x sane0 P H) as (r & s & R & N & ->).
  destruct (process_sane fuel s r N (P r (nth_error_In _ _ R))) as (_ & _ & A & B). split; [exact A|].
  intros d D. destruct (B d D) as (B1 & B2 & B3). exists r. auto.
Qed.

(* C58.  If every call takes at least a byte and pictures fit, every frame
   has its round: no round goes on for ever and none stops those after it. *)
Theorem C58_ends_partial fuel rs :
  (forall r, In r rs -> plain r /\ advances r /\ clen (rframe r) <= Z.of_nat fuel) ->
  List.length (snd (run fuel vdec0 rs)) = List.length rs /\
  forall x, In x (snd (run fuel vdec0 rs)) -> x = Nothing \/ exists d, x = Delivered d.
Proof.
  generalize sane0. generalize vdec0. induction rs as [|r t IH]; intros s N P; [split; [reflexivity|intros x []]|].
  destruct (P r (or_introl eq_refl)) as (P1 & P2 & P3). cbn [run].
  destruct (process_sane fuel s r N P1) as (A & _ & C & _).
  assert (R : snd (process fuel s r) <> Running /\ snd (process fuel s r) <> Overflow).
  { unfold process. destruct (reconfigure s (ccodec (rframe r)) (ropen r)) as [s1 []]; [|split; discriminate|split; discriminate].
    split; [apply loop_ends; [intros m len got Q; apply (P2 m len got Q)|exact P3]|].
    apply loop_fits. intros m len p Q. apply (P2 m len _ Q). reflexivity. }
  destruct (process fuel s r) as [s1 x]. cbn [fst snd] in *.
  assert (X : x = Nothing \/ exists d, x = Delivered d).
  { destruct x; try tauto. right; eexists; reflexivity. }
  assert (F : fatal x = false) by (destruct X as [->|[d ->]]; reflexivity). rewrite F.
  destruct (IH s1 A (fun q Q => P q (or_intror Q))) as (L & M). destruct (run fuel s1 t) as [s2 l]. cbn [snd] in *.
  split; [cbn; f_equal; exact L|]. intros y [<-|Y]; [exact X|exact (M y Y)].
Qed.

(* C58.  An error is got over: after any history, when the decoder of a frame
   fails and can be opened again, the next frame of the codec whose first call
   gives a picture is handed on. *)
Theorem C58_recovers_partial fuel rs r1 r2 len p :
  (forall r, In r rs -> plain r) -> offered (ccodec (rframe r1)) -> ropen r1 = Opens -> ragain r1 = Opens ->
  0 < clen (rframe r1) -> rcalls r1 0 = Err ->
  ccodec (rframe r2) = ccodec (rframe r1) -> 0 < clen (rframe r2) ->
  rcalls r2 0 = Took len (Some p) -> 0 < pbytes p <= RsmModel.slotSize ->
  let s := fst (process (S fuel) (fst (run fuel vdec0 rs)) r1) in
  exists d, snd (process (S fuel) s r2) = Delivered d /\ dnum d = pnum p /\ stampedAs (rframe r2) d.
Proof.
  intros P P1 O1 O L1 C1 K L2 C2 B. pose proof (run_sane fuel rs vdec0 sane0 P) as N.
  set (s0 := fst (run fuel vdec0 rs)) in *. apply offered_supported in P1.
  set (c := ccodec (rframe r1)) in *.
  assert (Q : process (S fuel) s0 r1 = (mkV c (Opened c), Nothing)).
  { unfold process, reconfigure. fold c. destruct (vcodec_eqb (fCodec s0) c) eqn:E.
    - apply vcodec_eqb_eq in E. rewrite <- E in *. cbn [loop].
      destruct (Z.leb_spec (clen (rframe r1)) 0); [lia|]. destruct N as [N|[_ N]]; [rewrite N in P1; discriminate P1|].
      rewrite C1, O. unfold again, inputConfig. rewrite P1. destruct N as [-> | ->]; reflexivity.
    - assert (F : ctx s0 <> FreedCtx) by (destruct N as [N|[_ [N|N]]]; rewrite N; discriminate).
      unfold inputConfig at 1. cbn [fCodec ctx]. rewrite P1, O1.
      destruct (ctx s0); try congruence; cbn [loop ctx]; (destruct (Z.leb_spec (clen (rframe r1)) 0); [lia|]);
      rewrite C1, O; unfold again, inputConfig; cbn [fCodec ctx]; rewrite P1; reflexivity. }
  rewrite Q. cbn [fst]. unfold process, reconfigure. cbn [fCodec].
  rewrite (proj2 (vcodec_eqb_eq _ _) (eq_sym K)).
  cbn [loop ctx]. destruct (Z.leb_spec (clen (rframe r2)) 0); [lia|]. rewrite C2.
  destruct (Z.leb_spec (pbytes p) 0); [lia|]. destruct (Z.leb_spec (pbytes p) RsmModel.slotSize); [|lia].
  eexists. split; [reflexivity|]. cbn. unfold stampedAs. cbn. auto.
Qed.

(* C58 is false: the second of two frames of a codec that is not offered
   crashes a new decoder. *)
Theorem C58_unsupported_refuted fuel r1 r2 :
  ~ offered (ccodec (rframe r1)) -> ccodec (rframe r1) <> VC_NONE -> ccodec (rframe r2) = ccodec (rframe r1) ->
  0 < clen (rframe r2) -> snd (run fuel vdec0 [r1; r2]) = [Nothing; Crash].
Proof.
  intros U V E L. assert (S : supported (ccodec (rframe r1)) = false).
  { destruct (supported (ccodec (rframe r1))) eqn:S; [|reflexivity]. elim U. apply offered_supported. exact S. }
  cbn [run]. unfold process at 1, reconfigure. cbn [fCodec vdec0].
  rewrite (proj2 (vcodec_eqb_neq _ _) (not_eq_sym V)). unfold inputConfig. cbn [fCodec]. rewrite S. cbn [fatal].
  unfold process, reconfigure. cbn [fCodec]. rewrite (proj2 (vcodec_eqb_eq _ _) (eq_sym E)).
  destruct fuel; cbn [loop ctx vdec0]; (destruct (Z.leb_spec (clen (rframe r2)) 0); [lia|]); reflexivity.
Qed.

(* C58 is false: a decoder in use hands the second of two such frames to the
   decoder of the codec used before. *)
Theorem C58_wrong_decoder_refuted fuel s c r1 r2 len p :
  ctx s = Opened c -> fCodec s <> ccodec (rframe r1) -> ~ offered (ccodec (rframe r1)) ->
  ccodec (rframe r2) = ccodec (rframe r1) -> 0 < clen (rframe r2) ->
  rcalls r2 0 = Took len (Some p) -> 0 < pbytes p <= RsmModel.slotSize ->
  exists d, snd (run (S fuel) s [r1; r2]) = [Nothing; Delivered d] /\ dby d = c.
Proof.
  intros C F U E L K B. assert (S : supported (ccodec (rframe r1)) = false).
  { destruct (supported (ccodec (rframe r1))) eqn:S; [|reflexivity]. elim U. apply offered_supported. exact S. }
  cbn [run]. unfold process at 1, reconfigure. rewrite (proj2 (vcodec_eqb_neq _ _) F). unfold inputConfig. cbn [fCodec]. rewrite S. cbn [fatal].
  unfold process, reconfigure. cbn [fCodec]. rewrite (proj2 (vcodec_eqb_eq _ _) (eq_sym E)).
  cbn [loop ctx]. destruct (Z.leb_spec (clen (rframe r2)) 0); [lia|]. rewrite C, K.
  destruct (Z.leb_spec (pbytes p) 0); [lia|]. destruct (Z.leb_spec (pbytes p) RsmModel.slotSize); [|lia].
  eexists. split; reflexivity.
Qed.

(* C58 is false: when a decoder is in use and libav lacks the next codec, the
   freed decoder is used by the next frame, freed again by a frame of any
   other offered codec, and freed again when the filter goes. *)
Theorem C58_missing_codec_refuted fuel s c r1 r2 :
  ctx s = Opened c -> fCodec s <> ccodec (rframe r1) -> offered (ccodec (rframe r1)) -> ropen r1 = NotFound ->
  offered (ccodec (rframe r2)) -> 0 < clen (rframe r2) ->
  snd (run fuel s [r1; r2]) = [Nothing; Crash] /\ destroy (fst (run fuel s [r1])) = false.
Proof.
  intros C F U O U2 L. apply offered_supported in U. apply offered_supported in U2.
  assert (Q : process fuel s r1 = (mkV (ccodec (rframe r1)) FreedCtx, Nothing)).
  { unfold process, reconfigure. rewrite (proj2 (vcodec_eqb_neq _ _) F). unfold inputConfig. cbn [fCodec ctx]. rewrite U, C, O. reflexivity. }
  cbn [run]. rewrite Q. cbn [fatal]. split; [|reflexivity].
  unfold process, reconfigure. cbn [fCodec]. destruct (vcodec_eqb (ccodec (rframe r1)) (ccodec (rframe r2))).
  - destruct fuel; cbn [loop ctx]; (destruct (Z.leb_spec (clen (rframe r2)) 0); [lia|]); reflexivity.
  - unfold inputConfig. cbn [fCodec ctx]. rewrite U2. reflexivity.
Qed.

(* C58 is false: a codec that takes no byte and gives no picture holds the
   filter for ever. *)
Theorem C58_hang_refuted s c r : ctx s = Opened c -> fCodec s = ccodec (rframe r) ->
  0 < clen (rframe r) -> (forall n, rcalls r n = Took 0 None) ->
  forall fuel, snd (process fuel s r) = Running.
Proof.
  intros C E L K fuel. unfold process, reconfigure. rewrite (proj2 (vcodec_eqb_eq _ _) E).
  generalize 0%nat. induction fuel as [|k IH]; intros n; cbn [loop]; (destruct (Z.leb_spec (clen (rframe r)) 0); [lia|]); rewrite C; [reflexivity|].
  rewrite K, Z.sub_0_r. apply IH.
Qed.

(* C58 is false: a picture larger than a slot is written beyond it. *)
Theorem C58_overflow_refuted fuel s c r len p : ctx s = Opened c -> fCodec s = ccodec (rframe r) ->
  0 < clen (rframe r) -> rcalls r 0 = Took len (Some p) -> RsmModel.slotSize < pbytes p ->
  snd (process (S fuel) s r) = Overflow.
Proof.
  intros C E L K B. unfold process, reconfigure. rewrite (proj2 (vcodec_eqb_eq _ _) E).
  cbn [loop]. destruct (Z.leb_spec (clen (rframe r)) 0); [lia|]. rewrite C, K.
  assert (0 < RsmModel.slotSize) by reflexivity.
  destruct (Z.leb_spec (pbytes p) 0); [lia|]. destruct (Z.leb_spec (pbytes p) RsmModel.slotSize); [lia|reflexivity].
Qed.

(* C58 is false: of several pictures in a frame only the first is handed on;
   what the codec would say of the rest is never asked. *)
Theorem C58_one_picture_refuted fuel s c r calls len p : ctx s = Opened c -> fCodec s = ccodec (rframe r) ->
  0 < clen (rframe r) -> rcalls r 0 = Took len (Some p) -> 0 < pbytes p <= RsmModel.slotSize -> calls 0%nat = rcalls r 0 ->
  process (S fuel) s (mkRound (rframe r) (ropen r) calls (ragain r)) = process (S fuel) s r /\
  exists d, process (S fuel) s r = (s, Delivered d) /\ dnum d = pnum p.
Proof.
  intros C E L K B Q. unfold process, reconfigure. cbn [rframe ropen rcalls ragain]. rewrite (proj2 (vcodec_eqb_eq _ _) E).
  cbn [loop]. destruct (Z.leb_spec (clen (rframe r)) 0); [lia|]. rewrite C, Q, K.
  destruct (Z.leb_spec (pbytes p) 0); [lia|]. destruct (Z.leb_spec (pbytes p) RsmModel.slotSize); [|lia].
  split; [reflexivity|]. eexists. split; reflexivity.
Qed.

(* C58 is false: with a codec that has a delay, every picture has the time of
   a later frame.  The picture of frame k-d is stamped with the time of frame
   k; it is right exactly when the codec has no delay. *)
Lemma stream_run T d : forall n a s, (s = vdec0 \/ s = mkV H264 (Opened H264)) ->
  snd (run 1 s (map (delayed T d) (seq a n))) =
  map (fun k => if (d <=? k)%nat then Delivered (mkD (Z.of_nat (k - d)) (T k) 0 0 1 H264) else Nothing) (seq a n).
Proof.
  induction n as [|n IH]; intros a s N; [reflexivity|]. cbn [seq map run].
  assert (Q : process 1 s (delayed T d a) = (mkV H264 (Opened H264),
     if (d <=? a)%nat then Delivered (mkD (Z.of_nat (a - d)) (T a) 0 0 1 H264) else Nothing)).
  { unfold delayed. destruct (d <=? a)%nat; destruct N as [-> | ->]; reflexivity. }
  rewrite Q. replace (fatal _) with false by (destruct (d <=? a)%nat; reflexivity).
  specialize (IH (S a) (mkV H264 (Opened H264)) (or_intror eq_refl)).
  destruct (run 1 (mkV H264 (Opened H264)) _) as [s2 l]. cbn [snd] in *. rewrite IH. reflexivity.
Qed.
Theorem C58_delay_refuted (T : nat -> Z) d n : (forall a b, (a < b)%nat -> T a < T b) -> (d < n)%nat ->
  ((forall x, In (Delivered x) (snd (run 1 vdec0 (stream T d n))) -> dpts x = T (Z.to_nat (dnum x))) <-> d = 0%nat).
Proof.
  intros M L. unfold stream. rewrite stream_run by (left; reflexivity). split.
  - intros H. destruct (Nat.eq_dec d 0) as [|Z0]; [assumption|]. exfalso.
    specialize (H (mkD 0 (T d) 0 0 1 H264)). cbn in H. assert (X : T d = T 0%nat).
    { apply H. apply in_map_iff. exists d. split; [|apply in_seq; lia]. rewrite Nat.leb_refl, Nat.sub_diag. reflexivity. }
    pose proof (M 0%nat d ltac:(lia)). lia.
  - intros -> x X. apply in_map_iff in X. destruct X as (k & K & _). cbn in K. inversion K; subst x. cbn.
    rewrite Nat.sub_0_r, Nat2Z.id. reflexivity.
Qed.

(* Cases. *)
Definition frame1 c n := mkC c n 40 30 7.
Definition one (p : picture) (n : nat) : call := match n with O => Took 3 None | _ => Took 4 (Some p) end.
Example C58_case :
  snd (run 10 vdec0
    [mkRound (frame1 H264 7) Opens (one (mkP 5 100)) Opens;
     mkRound (frame1 VP8 7) OpenFails (one (mkP 6 100)) Opens;
     mkRound (frame1 VP8 7) NotFound (one (mkP 7 100)) Opens;
     mkRound (frame1 VP8 7) NotFound (one (mkP 8 100)) Opens;
     mkRound (frame1 VP8 7) NotFound (fun _ => Err) Opens;
     mkRound (frame1 H264 3) Opens (one (mkP 9 100)) Opens])
  = [Delivered (mkD 5 40 30 7 100 H264); Nothing; Nothing; Delivered (mkD 8 40 30 7 100 VP8); Nothing; Nothing].
Proof. vm_compute. reflexivity. Qed.
Example C58_case_plain : forall r, In r [mkRound (frame1 H264 7) Opens (one (mkP 5 100)) Opens; mkRound (frame1 VP8 7) OpenFails (one (mkP 6 100)) Opens] ->
  plain r /\ advances r /\ clen (rframe r) <= Z.of_nat 10.
Proof.
  assert (A : forall q n len got, pbytes q = 100 -> one q n = Took len got -> 0 < len /\ (forall p, got = Some p -> pbytes p <= RsmModel.slotSize)).
  { intros q n len got B H. destruct n; cbn in H; inversion H; subst; (split; [reflexivity|intros p X; inversion X; subst; rewrite B; discriminate]). }
  intros r [<-|[<-|[]]]; unfold plain, offered, advances; cbn [rframe ropen ragain rcalls ccodec clen frame1];
  (split; [auto|split; [intros n len got; apply A; reflexivity|discriminate]]).
Qed.
Example C58_case_4k : RsmModel.slotSize < RsmModel.imageSize (RsmModel.mkPic 3840 2160 YUV420P).
Proof. reflexivity. Qed.
Example C58_case_used : ctx (fst (run 10 vdec0 [mkRound (frame1 H264 7) Opens (one (mkP 5 100)) Opens])) = Opened H264.
Proof. reflexivity. Qed.

Print Assumptions C58_delivered_partial.
Print Assumptions C58_ends_partial.
Print Assumptions C58_recovers_partial.
Print Assumptions C58_unsupported_refuted.
Print Assumptions C58_wrong_decoder_refuted.
Print Assumptions C58_missing_codec_refuted.
Print Assumptions C58_hang_refuted.
Print Assumptions C58_overflow_refuted.
Print Assumptions C58_one_picture_refuted.
Print Assumptions C58_delay_refuted.
