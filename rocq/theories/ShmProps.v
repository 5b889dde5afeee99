(** C34: what a process reading the shared memory sees. *)
From Verif Require Import Base Bytes ShmModel ShmSpec ShmProofs.
Local Open Scope list_scope.
Local Open Scope Z_scope.

Lemma subseq_map {A B} (g : A -> B) : forall m l, subseq l (map g m) -> exists c, subseq c m /\ l = map g c.
Proof.
  induction m as [|x m IH]; intros l H; cbn [map] in H.
  - inversion H; subst. exists []. split; [constructor|reflexivity].
  - inversion H as [|? ? ? H0|? ? ? H0]; subst; destruct (IH _ H0) as (c & C & ->); [exists c|exists (x :: c)]; (split; [constructor; exact C|reflexivity]).
Qed.
Lemma subseq_in {A} : forall (l m : list A) x, subseq l m -> In x l -> In x m.
Proof. induction 1; intros I; [exact I|right; auto|]. destruct I as [<-|I]; [left; reflexivity|right; auto]. Qed.
Lemma Forall2_map_l {A B} (P : B -> A -> Prop) (g : A -> B) : forall l, (forall x, In x l -> P (g x) x) -> Forall2 P (map g l) l.
Proof. induction l as [|x l IH]; intros H; constructor; [apply H; left; reflexivity|apply IH; intros y Y; apply H; right; exact Y]. Qed.

Definition rawInput (fs : list vframe) : Prop := Forall (fun f => vCodec f = RAW /\ len (vData f) <= SHMSIZE - HEADER_SIZE /\ fits f) fs.
Lemma raw_shows f : vCodec f = RAW -> len (vData f) <= SHMSIZE - HEADER_SIZE -> fits f -> shows (hdr f (len (vData f)) ++ vData f) f.
Proof. intros C L F. split; [apply hdr_headerOf; auto|]. split; [apply copyLength_hdr, L|apply hdr_payload]. Qed.

(** Raw video, any interleaving: the reader's copies are input frames - header and payload of the same frame,
    complete - in order and each at most once; and no store falls outside the segment. *)
Theorem C34_raw_complete_frames_partial fs sched : rawInput fs ->
  exists w chosen, run sched (world0 fs) = Some w /\ subseq chosen fs /\ Forall2 shows (seen w) chosen.
Proof.
  intros H.
  assert (H1 : Forall (fun f => vCodec f = RAW /\ len (vData f) <= MAXDATA) fs) by (eapply Forall_impl; [|exact H]; cbn beta; tauto).
  assert (H2 : Forall (fun f => vCodec f = RAW) fs) by (eapply Forall_impl; [|exact H]; cbn beta; tauto).
  destruct (seen_published fs sched (bounded_raw fs H1)) as (w & R & S). rewrite (proj1 (allPubs_raw fs wst0 H2)) in S. apply subseq_map in S. destruct S as (c & C & E).
  exists w, c. split; [exact R|]. split; [exact C|]. rewrite E. apply Forall2_map_l. intros x X. apply (subseq_in c fs x C) in X. unfold rawInput in H. rewrite Forall_forall in H. destruct (H x X) as (A & B & D). apply raw_shows; assumption.
Qed.
(** Some interleaving shows the reader every frame. *)
Theorem C34_raw_all_frames fs : rawInput fs -> exists sched w, run sched (world0 fs) = Some w /\ Forall2 shows (seen w) fs.
Proof.
  intros H.
  assert (H1 : Forall (fun f => vCodec f = RAW /\ len (vData f) <= MAXDATA) fs) by (eapply Forall_impl; [|exact H]; cbn beta; tauto).
  assert (H2 : Forall (fun f => vCodec f = RAW) fs) by (eapply Forall_impl; [|exact H]; cbn beta; tauto).
  destruct (reader_keeps_up fs (bounded_raw fs H1)) as (s & w & R & S). exists s, w. split; [exact R|]. rewrite S, (proj1 (allPubs_raw fs wst0 H2)). apply Forall2_map_l. intros x X. unfold rawInput in H. rewrite Forall_forall in H. destruct (H x X) as (A & B & D). apply raw_shows; assumption.
Qed.

(** H.264: each copy's payload is one complete picture in Annex B format, in order and at most once; but the header
    is that of the first unit of the following picture (so that the last picture is never given out). *)
Definition showsPair (r : bytes) (pq : picture * picture) : Prop :=
  payload r = annexB (fst pq) /\ copyLength r = len (annexB (fst pq)) /\ headerOf r (fst (pFirst (snd pq))).
Definition h264Input (ps : list picture) : Prop :=
  Forall wfPicture ps /\ differ ps /\ Forall (fun p => len (annexB p) <= SHMSIZE - HEADER_SIZE /\ fits (fst (pFirst p))) ps.
Lemma pairs_in {A} : forall (l : list A) a b, In (a, b) (pairs l) -> In a l /\ In b l.
Proof.
  induction l as [|x l IH]; intros a b H; [destruct H|]. destruct l as [|y l]; [destruct H|]. destruct H as [H|H].
  - injection H as <- <-. split; [left; reflexivity|right; left; reflexivity].
  - apply IH in H. split; right; apply H.
Qed.
Lemma pair_shows ps x : h264Input ps -> In x (pairs ps) -> showsPair (pairRec x) x.
Proof.
  intros (W & _ & B) X. destruct x as [p q]. apply pairs_in in X. destruct X as [P Q]. rewrite Forall_forall in W, B. destruct (B p P) as [L _]. destruct (B q Q) as [_ F].
  unfold showsPair, pairRec. cbn [fst snd]. split; [apply hdr_payload|]. split; [apply copyLength_hdr, L|]. apply hdr_headerOf; [exact F|]. left. destruct (W q Q) as [_ U]. unfold units in U. apply Forall_inv in U. destruct (pFirst q). apply U.
Qed.
Lemma h264_bounded ps : h264Input ps -> bounded (concat (map framesOf ps)).
Proof. intros (W & D & B). apply bounded_h264; [exact W| |exact D]. eapply Forall_impl; [|exact B]. cbn beta. tauto. Qed.
Theorem C34_h264_complete_pictures_partial ps sched : h264Input ps ->
  exists w chosen, run sched (world0 (concat (map framesOf ps))) = Some w /\ subseq chosen (pairs ps) /\ Forall2 showsPair (seen w) chosen.
Proof.
  intros H. pose proof H as (W & D & _). destruct (seen_published _ sched (h264_bounded ps H)) as (w & R & S). rewrite (h264_run ps W D) in S. apply subseq_map in S. destruct S as (c & C & E).
  exists w, c. split; [exact R|]. split; [exact C|]. rewrite E. apply Forall2_map_l. intros x X. apply (subseq_in c _ x C) in X. eapply pair_shows; eassumption.
Qed.
Theorem C34_h264_all_but_last ps : h264Input ps -> exists sched w, run sched (world0 (concat (map framesOf ps))) = Some w /\ Forall2 showsPair (seen w) (pairs ps).
Proof.
  intros H. pose proof H as (W & D & _). destruct (reader_keeps_up _ (h264_bounded ps H)) as (s & w & R & S). exists s, w. split; [exact R|]. rewrite S, (h264_run ps W D). apply Forall2_map_l. intros x X. eapply pair_shows; eassumption.
Qed.

(** *** Examples and refutations *)
Lemma run_seen sched w0 l : option_map seen (run sched w0) = Some l -> exists w, run sched w0 = Some w /\ seen w = l.
Proof. destruct (run sched w0) as [w|]; [|discriminate]. cbn. intros H. injection H as <-. exists w. split; reflexivity. Qed.
Ltac seenIs l := match goal with |- context [run ?s ?w0] => let E := fresh in assert (E : option_map seen (run s w0) = Some l) by (vm_compute; reflexivity); apply run_seen in E; destruct E as (w & R & SE) end.
Definition rawF (seq : Z) (w : Z) (d : bytes) : vframe := mkF RAW seq w 2 RGB24 (seq * 40000 + 3000000) d.
Example C34_raw_example : rawInput [rawF 7 640 [1; 2; 3]; rawF 8 640 [4; 5]].
Proof. repeat constructor; cbn; try lia; vm_compute; try discriminate; reflexivity. Qed.
Example C34_raw_run : exists w, run (repeat Writer 29 ++ repeat Reader 20 ++ [Writer] ++ repeat Reader 7) (world0 [rawF 7 640 [1; 2; 3]; rawF 8 640 [4; 5]]) = Some w /\
  map payload (seen w) = [[1; 2; 3]] /\ map copySeq (seen w) = [7] /\ map copyTime (seen w) = [3280000].
Proof. seenIs [[7; 0; 1; 0; 4; 0; 2; 0; 128; 2; 3; 0; 0; 0; 192; 69; 4; 0; 3; 0; 0; 0; 1; 2; 3]]. exists w. rewrite SE. split; [exact R|]. repeat split. Qed.

Definition nalF (seq t : Z) (n : bytes) : vframe := mkF H264 seq 640 360 YUV420P t ([0; 0; 0; 1] ++ n).
Definition pic1 := mkPic (nalF 1 0 [9; 16]) (nalF 1 0 [103; 1], [103; 1]) [(nalF 1 0 [101; 1; 2], [101; 1; 2])].
Definition pic2 := mkPic (nalF 2 40000 [9; 16]) (nalF 2 40000 [65; 3], [65; 3]) [].
Definition pic3 := mkPic (nalF 3 80000 [9; 16]) (nalF 3 80000 [65; 4], [65; 4]) [].
Example C34_h264_example : h264Input [pic1; pic2; pic3].
Proof.
  split; [|split].
  - assert (NF : forall a b n, n <> [] -> nalFrame (nalF a b n) n) by (intros a b n N; split; [reflexivity|]; split; [exact N|right; reflexivity]).
    repeat apply Forall_cons; try apply Forall_nil; (split; [exists [9; 16]; split; [apply NF; discriminate|reflexivity]|]);
      repeat apply Forall_cons; try apply Forall_nil; (split; [apply NF; discriminate|cbn; auto 10]).
  - cbn. split; [vm_compute; discriminate|]. split; [vm_compute; discriminate|constructor].
  - repeat constructor; cbn; try lia; vm_compute; try discriminate; reflexivity.
Qed.
(** The header does not belong to the picture: the first copy holds picture 1 with the time and sequence number of
    picture 2. *)
Theorem C34_h264_header_refuted : exists ps sched w r p, h264Input ps /\ run sched (world0 (concat (map framesOf ps))) = Some w /\ In r (seen w) /\ In p ps /\
  (forall q, In q ps -> payload r = annexB q -> q = p) /\ ~ (exists f, In f (framesOf p) /\ (copyTime r = vTime f \/ copySeq r = vSeq f mod 2 ^ 16)).
Proof.
  exists [pic1; pic2; pic3], (repeat Writer 70 ++ repeat Reader 60). set (r0 := pairRec (pic1, pic2)).
  assert (E : option_map seen (run (repeat Writer 70 ++ repeat Reader 60) (world0 (concat (map framesOf [pic1; pic2; pic3])))) = Some [r0]) by (vm_compute; reflexivity).
  apply run_seen in E. destruct E as (w & R & SE). exists w, r0, pic1. split; [apply C34_h264_example|]. split; [exact R|]. split; [rewrite SE; left; reflexivity|]. split; [left; reflexivity|]. split.
  - intros q Q E. destruct Q as [<-|[<-|[<-|[]]]]; [reflexivity| |]; vm_compute in E; discriminate E.
  - intros (f & F & E). destruct F as [<-|[<-|[<-|[]]]]; vm_compute in E; destruct E as [E|E]; discriminate E.
Qed.
(** Units of other types (here a data partition, type 2) are missing from the payload. *)
Definition pic1' := mkPic (nalF 1 0 [9; 16]) (nalF 1 0 [101; 1], [101; 1]) [(nalF 1 0 [66; 7], [66; 7])].
(** A frame that does not begin with a start code is left out. *)
Theorem C34_no_start_code_ignored f s : vCodec f = H264 -> newFrame s = false ->
  (forall r, vData f <> [0; 0; 1] ++ r) -> (forall r, vData f <> [0; 0; 0; 1] ++ r) -> process true f s = ([], s).
Proof.
  intros C N A B. assert (P : parseNal (vData f) s = s).
  { unfold parseNal, detectStartCode. destruct (vData f) as [|a [|b [|c [|d l]]]] eqn:E; unfold at_; cbn [nth].
    - reflexivity.
    - destruct (Z.eqb_spec a 0), (Z.eqb_spec 0 1); try lia; cbn [andb]; reflexivity.
    - destruct (Z.eqb_spec a 0), (Z.eqb_spec b 0), (Z.eqb_spec 0 1); try lia; cbn [andb]; reflexivity.
    - destruct (Z.eqb_spec a 0), (Z.eqb_spec b 0), (Z.eqb_spec c 1), (Z.eqb_spec c 0); try lia; cbn [andb]; reflexivity.
    - destruct (Z.eqb_spec a 0), (Z.eqb_spec b 0), (Z.eqb_spec c 1), (Z.eqb_spec c 0), (Z.eqb_spec d 1); try lia; cbn [andb]; try reflexivity; subst; exfalso; first [apply (A (skipn 3 (vData f))); rewrite E; reflexivity|apply (B (skipn 4 (vData f))); rewrite E; reflexivity]. }
  unfold process, restart, boundary. rewrite C, N, !andb_false_r, P. reflexivity.
Qed.
Theorem C34_other_units_refuted : exists sched w, run sched (world0 (concat (map framesOf [pic1'; pic2]))) = Some w /\ map payload (seen w) = [[0; 0; 0; 1; 101; 1]] /\ annexB pic1' = [0; 0; 0; 1; 101; 1; 0; 0; 0; 1; 66; 7].
Proof.
  exists (repeat Writer 70 ++ repeat Reader 60).
  assert (E : option_map seen (run (repeat Writer 70 ++ repeat Reader 60) (world0 (concat (map framesOf [pic1'; pic2])))) = Some [hdr (nalF 2 40000 [65; 3]) 6 ++ [0; 0; 0; 1; 101; 1]]) by (vm_compute; reflexivity).
  apply run_seen in E. destruct E as (w & R & SE). exists w. rewrite SE. split; [exact R|]. split; vm_compute; reflexivity.
Qed.
(** A frame that does not fit is written past the end of the segment. *)
Lemma overflow : forall ops w, pend w = ops -> Exists (fun o => SHMSIZE <= fst o) ops -> exists n, run (repeat Writer n) w = None.
Proof.
  induction ops as [|[a v] ops IH]; intros w E X; [inversion X|].
  destruct (wstep w) as [w1|] eqn:W.
  - pose proof W as W'. unfold wstep in W. rewrite E in W. destruct (Z.leb_spec 0 a), (Z.ltb_spec a SHMSIZE); try discriminate. injection W as <-. inversion X as [? ? X1|? ? X1]; subst; [cbn [fst] in X1; lia|].
    destruct (IH _ (eq_refl : pend (mkWorld (upd (mem w) a v) (inp w) ops (wr w) (rd_ w) (seen w) (wlog w)) = ops) X1) as (n & N). exists (S n). cbn [repeat run]. rewrite W'. exact N.
  - exists 1%nat. cbn [repeat run]. rewrite W. reflexivity.
Qed.
Lemma stores_exists : forall l a, SHMSIZE < a + len l -> 0 < len l -> Exists (fun o => SHMSIZE <= fst o) (stores a l).
Proof.
  induction l as [|x l IH]; intros a H P; [unfold len in P; cbn in P; lia|]. cbn [stores]. destruct (Z_le_gt_dec SHMSIZE a); [apply Exists_cons_hd; exact l0|]. apply Exists_cons_tl. unfold len in *. cbn [length] in *. apply IH; lia.
Qed.
Theorem C34_oversize_refuted f fs : vCodec f = RAW -> SHMSIZE - HEADER_SIZE < len (vData f) -> exists n, run (repeat Writer n) (world0 (f :: fs)) = None.
Proof.
  intros C L. unfold HEADER_SIZE, SHMSIZE in L.
  destruct (overflow (writeFramePayload f ++ writeRAW (vData f)) (mkWorld (mem (world0 (f :: fs))) fs (writeFramePayload f ++ writeRAW (vData f)) wst0 Idle [] [(true, f)]) eq_refl) as (n & N).
  - apply Exists_app. right. unfold writeRAW. apply Exists_app. right. apply Exists_app. left. apply stores_exists; unfold SHMSIZE, HEADER_SIZE; lia.
  - exists (S n). cbn [repeat run]. assert (W : wstep (world0 (f :: fs)) = Some (mkWorld (mem (world0 (f :: fs))) fs (writeFramePayload f ++ writeRAW (vData f)) wst0 Idle [] [(true, f)])).
    { unfold wstep. cbn [pend inp world0 mem wr rd_ seen wlog app]. change (upd (fun _ => 0) 0 CHAR_WRITING 0 =? CHAR_WRITING) with true. unfold process. rewrite C. reflexivity. }
    rewrite W. exact N.
Qed.
(** Dimensions of 65536 and more are announced modulo 65536. *)
Theorem C34_wide_refuted : exists f sched w r, run sched (world0 [f]) = Some w /\ seen w = [r] /\ vW f = 65537 /\ copyWidth r = 1.
Proof.
  exists (rawF 7 65537 [1]), (repeat Writer 40 ++ repeat Reader 40).
  assert (E : option_map seen (run (repeat Writer 40 ++ repeat Reader 40) (world0 [rawF 7 65537 [1]])) = Some [hdr (rawF 7 65537 [1]) 1 ++ [1]]) by (vm_compute; reflexivity).
  apply run_seen in E. destruct E as (w & R & SE). exists w. eexists. split; [exact R|]. split; [exact SE|]. split; reflexivity.
Qed.

Print Assumptions C34_raw_complete_frames_partial.
Print Assumptions C34_raw_all_frames.
Print Assumptions C34_h264_complete_pictures_partial.
Print Assumptions C34_h264_all_but_last.
Print Assumptions C34_h264_header_refuted.
Print Assumptions C34_other_units_refuted.
Print Assumptions C34_oversize_refuted.
Print Assumptions C34_wide_refuted.
