(** C37: what the demuxer delivers. *)
From Verif Require Import Base Bytes DmxModel DmxSpec DmxProofs.
Local Open Scope list_scope.
Local Open Scope Z_scope.

Definition prefix {A} (a b : list A) : Prop := exists c, b = a ++ c.
(** The demuxed stream: packets [l] with the units they hold. *)
Definition goodStream (cap : Z -> Z) (known : Z -> option psinfo) (l : list (packet * list unit_)) : Prop :=
  (forall s i, known s = Some i -> lastPTS i = 0) /\ Forall (wfPacket known) l /\ Forall (fitsAll cap known) l.
Definition enough (l : list (packet * list unit_)) : nat := fold_right (fun x a => 1 + length (snd x) + a)%nat 0%nat l.
Lemma outAll_ext toUs startTime connected sp1 sp2 w1 w2 known : forall l last,
  Forall (fun x => sp1 (snd x) = sp2 (snd x)) l -> Forall (fun x => kPts (fst x) <> None \/ forall s t, w1 s t = w2 s t) l ->
  outAll toUs startTime connected sp1 w1 known last l = outAll toUs startTime connected sp2 w2 known last l.
Proof.
  induction l as [|[p us] l IH]; intros last H1 H2; [reflexivity|]. pose proof (Forall_inv H1) as A. pose proof (Forall_inv H2) as B. cbn [fst snd] in A, B. cbn [outAll]. cbv zeta. rewrite (IH last (Forall_inv_tail H1) (Forall_inv_tail H2)).
  destruct (known (kStream p)) as [i|]; [|reflexivity]. rewrite (IH _ (Forall_inv_tail H1) (Forall_inv_tail H2)). f_equal. unfold outOf. rewrite A. destruct (kPts p); [reflexivity|]. destruct B as [B|B]; [congruence|]. rewrite B. reflexivity.
Qed.
(** Every packet content, exactly: unknown and unconnected streams give nothing, other streams give each packet's
    frames in order with its time, nothing else ever, and the calls deliver them all. A unit that starts in the last
    seven bytes of its packet stays glued to the unit before; a packet without a time gets the last tick count of its
    stream, not converted to microseconds. *)
Theorem C37_delivered_exactly toUs startTime cap connected known l n : goodStream cap known l ->
  exists d' got, calls toUs startTime cap connected n (opened known (map fst l)) = Some (d', got) /\
    prefix got (outAll toUs startTime connected pieces (fun _ t => t) known (fun _ => 0) l) /\
    ((enough l <= n)%nat -> got = outAll toUs startTime connected pieces (fun _ t => t) known (fun _ => 0) l).
Proof.
  intros (Z0 & W & F). destruct (stream_out toUs startTime cap connected known l W F Z0 n) as (d' & got & rest & C & E & R). exists d', got. split; [exact C|]. split; [exists rest; exact E|]. intros H. rewrite E, (R H), app_nil_r. reflexivity.
Qed.
(** The property itself, for packets with a time whose units do not start within the last seven bytes. *)
Theorem C37_one_frame_per_unit_partial toUs startTime cap connected known l n : goodStream cap known l -> Forall (fun x => roomy (snd x) /\ kPts (fst x) <> None) l ->
  exists d' got, calls toUs startTime cap connected n (opened known (map fst l)) = Some (d', got) /\
    prefix got (outAll toUs startTime connected (map framed) toUs known (fun _ => 0) l) /\
    ((enough l <= n)%nat -> got = outAll toUs startTime connected (map framed) toUs known (fun _ => 0) l).
Proof.
  intros G H. destruct (C37_delivered_exactly toUs startTime cap connected known l n G) as (d' & got & C & P & A). rewrite (outAll_ext toUs startTime connected pieces (map framed) (fun _ t => t) toUs) in P, A.
  - exists d', got. auto.
  - eapply Forall_impl; [|exact H]. cbn beta. intros x [R _]. apply pieces_roomy, R.
  - eapply Forall_impl; [|exact H]. cbn beta. intros x [_ R]. left. exact R.
  - eapply Forall_impl; [|exact H]. cbn beta. intros x [R _]. apply pieces_roomy, R.
  - eapply Forall_impl; [|exact H]. cbn beta. intros x [_ R]. left. exact R.
Qed.
(** In any case no byte of a unit is lost: the frames of a packet, one after the other, are its units in order. *)
Theorem C37_no_bytes_lost us : exists us', concat (pieces us) = annexB us' /\ map body us' = map body us.
Proof.
  induction us as [|u us (us' & E & B)]; [exists []; split; reflexivity|]. cbn [pieces]. destruct (len (annexB us) <? 8).
  - exists (mkU false (body u) :: us). cbn [concat map body]. rewrite app_nil_r. split; [unfold framed; rewrite annexB_cons, <- app_assoc; reflexivity|reflexivity].
  - exists (mkU false (body u) :: us'). cbn [concat map body]. rewrite E, B. split; [unfold framed; rewrite annexB_cons, <- app_assoc; reflexivity|reflexivity].
Qed.
(** Every frame starts with a four byte start code. *)
Theorem C37_start_codes us : Forall (fun b => exists r, b = [0; 0; 0; 1] ++ r) (pieces us).
Proof.
  induction us as [|u us IH]; cbn [pieces]; [constructor|]. destruct (len (annexB us) <? 8).
  - constructor; [|constructor]. unfold framed. rewrite <- app_assoc. eexists. reflexivity.
  - constructor; [|exact IH]. eexists. reflexivity.
Qed.

(** *** Examples *)
Definition k1 : Z -> option psinfo := fun s => if s =? 0 then Some (mkPsi true true 0) else if s =? 1 then Some (mkPsi true false 0) else if s =? 2 then Some (mkPsi false false 0) else None.
Definition u1 := mkU true [103; 1; 2]. Definition u2 := mkU false [104; 3]. Definition u3 := mkU true [101; 0; 0; 3; 1; 9].
Definition ex_in : list (packet * list unit_) :=
  [(mkPkt 0 (Some 3600) (annexB [u1; u2; u3]) None, [u1; u2; u3]); (mkPkt 5 (Some 0) [1] None, []); (mkPkt 2 (Some 7) [1; 2; 3] None, []); (mkPkt 1 (Some 7200) [0; 0; 0; 2; 9; 9] (Some (annexB [u3])), [u3])].
Lemma nal_check (n : bytes) : (if n then false else true) = true -> forallb (fun i => negb ((nth i n 0 =? 0) && (nth (i + 1) n 0 =? 0) && (nth (i + 2) n 0 =? 1))) (seq 0 (length n)) = true -> last n 0 <> 0 -> nal n.
Proof.
  intros E F L. split; [destruct n; [discriminate|congruence]|]. split; [|exact L]. intros a b ->. rewrite forallb_forall in F. specialize (F (length a)). rewrite in_seq in F. rewrite <- (Nat.add_0_r (length a)), <- !Nat.add_assoc, !nth_shift in F. cbn in F. rewrite app_length in F. cbn [length app] in F. assert (false = true) by (apply F; lia). discriminate.
Qed.
Lemma nal_u : nal (body u1) /\ nal (body u2) /\ nal (body u3).
Proof. repeat split; try (apply nal_check; [reflexivity|reflexivity|cbn; lia]). Qed.
Example C37_example : goodStream (fun _ => 100) k1 ex_in /\ Forall (fun x => roomy (snd x) /\ kPts (fst x) <> None) ex_in.
Proof.
  destruct nal_u as (N1 & N2 & N3). split; [split; [|split]|].
  - intros s i. unfold k1. destruct (s =? 0); [intros H; injection H as <-; reflexivity|]. destruct (s =? 1); [intros H; injection H as <-; reflexivity|]. destruct (s =? 2); [intros H; injection H as <-; reflexivity|discriminate].
  - repeat apply Forall_cons; try apply Forall_nil; intros i K NF b C; cbn in K; try discriminate; injection K as <-; cbn in NF, C; try discriminate; injection C as <-; (split; [reflexivity|]; split; [discriminate|]; repeat (apply Forall_cons; [assumption|]); apply Forall_nil).
  - repeat apply Forall_cons; try apply Forall_nil; intros i K; cbn in K; try discriminate; injection K as <-; cbn; repeat constructor; vm_compute; discriminate.
  - repeat apply Forall_cons; try apply Forall_nil; (split; [|discriminate]); cbn; repeat split; try (right; vm_compute; discriminate); try (left; reflexivity).
Qed.
Example C37_example_run : option_map snd (calls (fun _ t => t * 100 / 9) 5 (fun _ => 100) (fun s => negb (s =? 2)) 20 (opened k1 (map fst ex_in))) =
  Some [mkD 0 40005 [0; 0; 0; 1; 103; 1; 2]; mkD 0 40005 [0; 0; 0; 1; 104; 3]; mkD 0 40005 [0; 0; 0; 1; 101; 0; 0; 3; 1; 9]; mkD 1 80005 [0; 0; 0; 1; 101; 0; 0; 3; 1; 9]].
Proof. vm_compute. reflexivity. Qed.

(** *** Refuted *)
(** A short unit at the end of a packet is not given a frame of its own. *)
Theorem C37_short_last_unit_refuted : exists known us p, goodStream (fun _ => 100) known [(p, us)] /\ length us = 2%nat /\
  option_map snd (calls (fun _ t => t) 0 (fun _ => 100) (fun _ => true) 10 (opened known [p])) = Some [mkD 0 0 [0; 0; 0; 1; 103; 1; 2; 0; 0; 0; 1; 104; 3]].
Proof.
  exists k1, [u1; u2], (mkPkt 0 (Some 0) (annexB [u1; u2]) None). destruct nal_u as (N1 & N2 & N3). split; [|split; [reflexivity|vm_compute; reflexivity]]. split; [apply C37_example|]. split.
  - constructor; [|constructor]. intros i K NF b C. cbn in K. injection K as <-. cbn in C. injection C as <-. split; [reflexivity|]. split; [discriminate|]. repeat (apply Forall_cons; [assumption|]); apply Forall_nil.
  - constructor; [|constructor]. intros i K. cbn in K. injection K as <-. repeat constructor. vm_compute. discriminate.
Qed.
(** Generally: whenever fewer than eight bytes follow a unit. *)
Theorem C37_glued_refuted u rest : rest <> [] -> len (annexB rest) < 8 -> pieces (u :: rest) = [framed u ++ annexB rest] /\ map framed (u :: rest) <> pieces (u :: rest).
Proof.
  intros N L. cbn [pieces]. destruct (Z.ltb_spec (len (annexB rest)) 8); [|lia]. split; [reflexivity|]. destruct rest as [|v rest]; [congruence|]. cbn [map]. discriminate.
Qed.
(** A packet without a start code, or too short to hold one, makes the filter read and copy outside the buffer. *)
Theorem C37_no_start_code_refuted toUs st cap connected known p rest i : known (kStream p) = Some i -> needsFraming i = true -> isAnnexB i = true -> connected (kStream p) = true ->
  (forall j, (j + 3 < length (kData p))%nat -> startAt (kData p) j = false) -> doProcess toUs st cap connected (opened known (p :: rest)) = None.
Proof.
  intros K NF AB CN NS. unfold doProcess, fetch, opened. cbn [hand source infos]. rewrite K.
  assert (E : needsFraming (match kPts p with Some t => {| needsFraming := needsFraming i; isAnnexB := isAnnexB i; lastPTS := t |} | None => i end) = true /\ isAnnexB (match kPts p with Some t => {| needsFraming := needsFraming i; isAnnexB := isAnnexB i; lastPTS := t |} | None => i end) = true) by (destruct (kPts p); auto).
  destruct E as [E1 E2]. rewrite E1, E2. cbn [andb negb]. rewrite CN, E1. cbn [negb]. unfold split, findStartCode. rewrite find_none; [reflexivity|]. intros j J. apply NS. lia.
Qed.
Example C37_no_start_code_example : doProcess (fun _ t => t) 0 (fun _ => 100) (fun _ => true) (opened k1 [mkPkt 0 (Some 0) [0; 0; 1] None]) = None.
Proof. apply (C37_no_start_code_refuted _ _ _ _ _ _ _ (mkPsi true true 0)); try reflexivity. intros j J. cbn in J. lia. Qed.
(** A unit larger than the output frame is copied past its end. *)
Theorem C37_large_unit_refuted cap u : nal (body u) -> cap < len (framed u) -> split cap (annexB [u]) 0 = None.
Proof.
  intros N H. destruct (split cap (annexB [u]) 0) as [[x e]|] eqn:E; [|reflexivity]. exfalso.
  pose proof (split_step [] u [] (len (framed u)) N) as S. cbn [app length] in S. change (len (annexB [])) with 0 in S. cbn [Z.ltb Z.compare] in S. change (annexB []) with (@nil Z) in S. rewrite app_nil_r in S. specialize (S (Z.le_refl _)).
  unfold split in E, S. destruct (findStartCode (annexB [u]) 0 (length (annexB [u]))); [|discriminate]. cbv zeta in E, S.
  match type of S with (if len ?d <=? _ then _ else _) = _ => set (dd := d) in * end. clearbody dd. destruct (len dd <=? len (framed u)); [|discriminate]. injection S as -> S2. destruct (Z.leb_spec (len (framed u)) cap); [lia|discriminate].
Qed.
(** Without a time of its own, a packet is stamped with the tick count of the one before it: with 90 kHz ticks this
    is a time in the past, here one second becomes 90 milliseconds. *)
Theorem C37_missing_time_refuted : exists known ps, option_map (fun x => map dTime (snd x)) (calls (fun _ t => t * 100 / 9) 0 (fun _ => 100) (fun _ => true) 10 (opened known ps)) = Some [1000000; 90000].
Proof. exists k1, [mkPkt 2 (Some 90000) [1] None; mkPkt 2 None [2] None]. vm_compute. reflexivity. Qed.

Print Assumptions C37_delivered_exactly.
Print Assumptions C37_one_frame_per_unit_partial.
Print Assumptions C37_no_bytes_lost.
Print Assumptions C37_start_codes.
Print Assumptions C37_short_last_unit_refuted.
Print Assumptions C37_glued_refuted.
Print Assumptions C37_no_start_code_refuted.
Print Assumptions C37_large_unit_refuted.
Print Assumptions C37_missing_time_refuted.
