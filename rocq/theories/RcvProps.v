(* C49: data received on a port reach the connected output, one frame each.
   C50: ports survive disconnection, removal and the end of a stream. *)
From Coq Require Import ZArith List Bool Lia.
From Verif Require Import Bytes RcvModel RcvSpec RcvProofs.
Import ListNotations.
Open Scope Z_scope.

(* ---------------- C49 ---------------- *)

(* Once an output is connected, whatever the source hands over in whatever
   order of rounds reaches it: one frame per received piece of data, in
   order, with its bytes (as many as a frame of the output holds), its
   length, its time, and consecutive sequence numbers from 0.  This needs
   that no request is pending when the connection is made. *)
Theorem C49_delivery_partial : forall p mx ops,
  reachable p -> idle p -> ~ requested p -> rounds ops ->
  exists p' got, run (OConnect mx :: ops) p = Ok (p', got) /\
    handed (pnext p) p' = expected (pnext p) mx 0 got.
Proof.
  intros p mx ops R I NR Ro. apply reachable_inv in R.
  assert (L : false = true <-> requested p) by (split; [discriminate|intros X; destruct (NR X)]).
  destruct (connect_dinv p mx false R I L) as (p1 & E1 & D1).
  destruct (run_deliver _ _ _ ops _ _ D1 Ro) as (p2 & got & E2 & D2).
  exists p2, got. cbn [run]. rewrite E1. cbn [bind]. rewrite E2. split; [reflexivity|].
  destruct D2 as (s & w & _ & _ & _ & _ & _ & _ & _ & H & _). exact H.
Qed.

(* A sink requests data as soon as its session starts, so a request is
   nearly always pending.  Then everything still arrives in order and
   numbered, but the first frame carries the length and time of the first
   data and none of their bytes: those went to the sink's own buffer. *)
Theorem C49_first_frame_refuted : forall p mx ops,
  reachable p -> idle p -> requested p -> rounds ops ->
  exists p' got, run (OConnect mx :: ops) p = Ok (p', got) /\
    handed (pnext p) p' = expectedLate (pnext p) mx got.
Proof.
  intros p mx ops R I NR Ro. apply reachable_inv in R.
  assert (L : true = true <-> requested p) by (split; [intros _; exact NR|reflexivity]).
  destruct (connect_dinv p mx true R I L) as (p1 & E1 & D1).
  destruct (run_deliver _ _ _ ops _ _ D1 Ro) as (p2 & got & E2 & D2).
  exists p2, got. cbn [run]. rewrite E1. cbn [bind]. rewrite E2. split; [reflexivity|].
  destruct D2 as (s & w & _ & _ & _ & _ & _ & _ & _ & H & _). exact H.
Qed.

(* The length of that first frame is not limited by the size of the frames
   of the output either. *)
Theorem C49_first_length_refuted : exists p' got,
  run [OAdd; OConnect 4; ORound (Some (EData [1;2;3;4;5;6] 40))] port0 = Ok (p', got) /\
  handed 0 p' = [mkOut 0 None 6 40 0].
Proof. do 2 eexists. split; vm_compute; reflexivity. Qed.

(* The sink never stalls: while it lives, either data are requested or the
   next request is scheduled, and never both. *)
Theorem C49_never_stalls : forall p s, reachable p -> pent p = Live s ->
  (task s = true /\ asked s = None) \/ (task s = false /\ asked s <> None).
Proof.
  intros p s R E. apply reachable_inv in R. destruct R as (_ & _ & _ & D). rewrite E in D.
  destruct D as (_ & _ & _ & _ & _ & D & _).
  destruct (task s) eqn:T.
  - left. split; [reflexivity|]. apply D. reflexivity.
  - right. split; [reflexivity|]. intros X. apply D in X. discriminate.
Qed.

(* Two rounds after a frame was delivered the next one is being filled: the
   scheduled call makes the request into the output's frame. *)
Theorem C49_next_request : forall p s w, reachable p -> pent p = Live s -> pw p = Some w ->
  wconn w = true -> (held s = None -> free s = true) -> asked s = None ->
  exists p', round (Some ETask) p = Ok (p', None) /\ filling (wq w) p'.
Proof.
  intros p s w R E W K HF NA. apply reachable_inv in R.
  pose proof R as (_ & _ & _ & D). rewrite E in D.
  destruct D as (D1 & D2 & D3 & D4 & D5 & D6 & D7).
  assert (T : task s = true) by (apply D6; exact NA).
  unfold round, demand. rewrite W, K. cbn [bind].
  unfold offer. cbn [setPw pw pent setCur wq widx]. rewrite E. cbn [bind].
  set (s1 := setFrame s (wq w, widx w)).
  assert (Hs1 : held s1 = Some (wq w, widx w) /\ free s1 = false /\ task s1 = true).
  { unfold s1, setFrame. destruct (free s) eqn:F; cbn [held free asked task]; [auto|].
    destruct (held s) as [[q k]|] eqn:Hd; [|specialize (HF eq_refl); discriminate].
    destruct (D2 q k eq_refl) as (w' & Hw & Hq & Hi). assert (w' = w) by congruence. subst w' q.
    rewrite (Hi eq_refl), ?T. auto. }
  destruct Hs1 as (Hh & Hf & Ht).
  unfold singleStep. cbn [setEnt pent]. rewrite Ht. cbn [bind].
  unfold addFrame, setEnt; cbn [pw setPw wcur setCur done].
  eexists; split; [reflexivity|].
  unfold filling. cbn [pent]. unfold continuePlaying; cbn [held free asked task].
  rewrite Hh, Hf. do 2 eexists. split; reflexivity.
Qed.

(* Not vacuous: a session starts, one datum is lost in the sink's own buffer,
   then an output is connected with no request pending, and two data arrive. *)
Example C49_delivery_case :
  let pre := [OAdd; ORound (Some (EData [9] 1))] in
  let ops := [ORound (Some ETask); ORound (Some (EData [1;2;3;4;5;6] 40)); ORound (Some ETask);
              ORound None; ORound (Some ETask); ORound (Some (EData [7;8] 80))] in
  (exists p l, run pre port0 = Ok (p, l) /\ supportedAll pre port0 /\
     idle p /\ ~ requested p /\ pnext p = 0) /\ rounds ops /\
  exists p' got, run (pre ++ OConnect 4 :: ops) port0 = Ok (p', got) /\
    handed 0 p' = [mkOut 0 (Some [1;2;3;4]) 4 40 0; mkOut 0 (Some [7;8]) 2 80 1].
Proof.
  cbv zeta. split; [|split].
  - eexists. eexists. split; [vm_compute; reflexivity|]. split.
    + cbn [supportedAll]. unfold supported. repeat split; try discriminate; cbn.
      * intros q F. destruct F.
      * intros q (w & W & _). discriminate.
    + split; [|split; [|reflexivity]].
      * eexists. split; [reflexivity|]. repeat split.
      * intros (s & E & A). injection E as <-. discriminate.
  - unfold rounds. repeat (apply Forall_cons; [eexists; split; [reflexivity|discriminate]|]). apply Forall_nil.
  - do 2 eexists. split; vm_compute; reflexivity.
Qed.

(* Not vacuous: connecting right after the session starts. *)
Example C49_late_case :
  exists p' got, run [OAdd; OConnect 4; ORound (Some (EData [1;2] 40)); ORound (Some ETask);
                      ORound (Some (EData [3] 80))] port0 = Ok (p', got) /\
    handed 0 p' = [mkOut 0 None 2 40 0; mkOut 0 (Some [3]) 1 80 1].
Proof. do 2 eexists. split; vm_compute; reflexivity. Qed.

(* ---------------- C50 ---------------- *)

(* In every supported history nothing goes wrong: no freed memory is used,
   no missing sink is dereferenced, and no frame already handed over is
   written again. *)
Theorem C50_safe_partial : forall ops, supportedAll ops port0 ->
  exists p l, run ops port0 = Ok (p, l).
Proof.
  intros ops S. destruct (inv_run ops port0 pinv0 S) as (p & l & E & _). eauto.
Qed.

(* Disconnecting an output while data for it are awaited, the usual state,
   silences the port: whatever is connected to it later, nothing is ever
   handed over again while the session lasts. *)
Theorem C50_reconnect_refuted : forall p w ops p' l,
  reachable p -> pw p = Some w -> filling (wq w) p -> Forall keepsSession ops ->
  run (ODisc :: ops) p = Ok (p', l) -> pout p' = pout p.
Proof.
  intros p w ops p' l R W (s & k & E & A) F H. apply reachable_inv in R.
  destruct R as (RA & _ & _ & D). rewrite E in D. destruct D as (D1 & _).
  destruct (RA w W) as (_ & I & _).
  cbn [run] in H. destruct (step ODisc p) as [[p1 g]|] eqn:X; [|discriminate].
  cbn [bind] in H. destruct (run ops p1) as [[p2 l2]|] eqn:Y; [|discriminate].
  injection H as <- <-.
  assert (stuck p1 /\ pout p1 = pout p) as (S1 & S2).
  { cbn [step] in X. unfold disconnectWriter in X. rewrite W in X.
    unfold deleteWriter, specificWriterDelete in X.
    destruct (wconn w); cbn [setLimbo setPw pinfo pent] in X; rewrite I, E in X;
    injection X as <- <-; unfold stuck; cbn; rewrite (D1 _ A); auto. }
  rewrite <- S2. eapply stuck_run; eauto.
Qed.

(* Worse, the data awaited are then written to the memory of the queue that
   is gone: as soon as the reader has gone too, or at once if it went
   first. *)
Theorem C50_awaited_refuted : forall p w d t,
  reachable p -> pw p = Some w -> filling (wq w) p -> wconn w = true ->
  run [ODisc; OLeaveOld (wq w); ORound (Some (EData d t))] p = Fault UseAfterFree /\
  run [OLeave; ORound None; ORound (Some (EData d t))] p = Fault UseAfterFree.
Proof.
  intros p w d t R W (s & k & E & A) K. apply reachable_inv in R.
  destruct R as (RA & _ & _ & D). rewrite E in D. destruct D as (D1 & _).
  destruct (RA w W) as (_ & I & M).
  split.
  - cbn [run step]. unfold disconnectWriter. rewrite W, K.
    unfold deleteWriter, specificWriterDelete. cbn [setLimbo setPw pinfo pent].
    rewrite I, E. cbn [plain bind setEnt]. unfold round, demand, offer, singleStep, setLimbo.
    cbn [bind pw setPw setEnt pent plimbo sinkDisconnect asked]. rewrite A.
    unfold receive. cbn [pw plimbo].
    rewrite memZ_drop, Z.eqb_refl. reflexivity.
  - cbn [run step]. rewrite W. cbn [bind]. unfold round at 1, demand. cbn [setPw pw wconn].
    unfold deleteWriter, specificWriterDelete. cbn [setPw pinfo pent].
    rewrite I, E. cbn [bind setEnt]. unfold offer, singleStep. cbn [pw bind setPw setEnt pent].
    unfold addFrame. cbn [pw]. unfold round, demand, offer, singleStep. cbn [bind pw setPw setEnt pent sinkDisconnect asked].
    rewrite A. unfold receive. cbn [pw plimbo setPw setEnt]. rewrite M. reflexivity.
Qed.

(* Removing the session of a connected port always dereferences a sink that
   is no longer there. *)
Theorem C50_removal_refuted : forall p w s,
  reachable p -> pw p = Some w -> pent p = Live s -> step ORemove p = Fault NullDeref.
Proof.
  intros p w s R W E. apply reachable_inv in R. destruct R as (RA & _).
  destruct (RA w W) as (_ & I & _).
  cbn [step]. unfold removePort. rewrite E. unfold disconnectWriter, setEnt. cbn [pw]. rewrite W.
  unfold deleteWriter, specificWriterDelete.
  destruct (wconn w); cbn [setLimbo setPw pinfo pent]; rewrite I; reflexivity.
Qed.

(* When the sender ends the stream of a connected port, the next round uses
   the closed sink, and so does disconnecting the output; removing the
   session does so whether connected or not. *)
Theorem C50_bye_refuted : forall p s ev,
  reachable p -> pent p = Live s ->
  run [ORound (Some EBye); ORemove] p = Fault UseAfterFree /\
  (forall w, pw p = Some w -> wconn w = true ->
     run [ORound (Some EBye); ORound ev] p = Fault UseAfterFree /\
     run [ORound (Some EBye); ODisc] p = Fault UseAfterFree).
Proof.
  intros p s ev R E. apply reachable_inv in R. destruct R as (RA & _).
  split.
  - cbn [run step]. unfold round, demand. destruct (pw p) as [w|] eqn:W.
    + destruct (RA w eq_refl) as (_ & I & _). destruct (wconn w).
      * unfold offer. cbn [bind setPw pw pent setCur wq widx]. rewrite E. cbn [bind].
        unfold singleStep. cbn [setEnt pent bind]. unfold addFrame. cbn [setEnt pw setPw wcur setCur done bind].
        reflexivity.
      * unfold deleteWriter, specificWriterDelete. cbn [setPw pinfo pent]. rewrite I, E. reflexivity.
    + cbn [bind]. unfold offer. rewrite W. cbn [bind]. unfold singleStep. rewrite E. cbn [bind].
      unfold addFrame. cbn [setEnt pw]. rewrite W. reflexivity.
  - intros w W K. destruct (RA w W) as (_ & I & _). split; cbn [run step].
    + unfold round at 1, demand. rewrite W, K. unfold offer. cbn [bind setPw pw pent setCur wq widx].
      rewrite E. cbn [bind]. unfold singleStep. cbn [setEnt pent bind].
      unfold addFrame. cbn [setEnt pw setPw wcur setCur done bind].
      unfold round, demand. cbn [pw setPw setEnt wconn setCur]. rewrite K. reflexivity.
    + unfold round at 1, demand. rewrite W, K. unfold offer. cbn [bind setPw pw pent setCur wq widx].
      rewrite E. cbn [bind]. unfold singleStep. cbn [setEnt pent bind].
      unfold addFrame. cbn [setEnt pw setPw wcur setCur done bind].
      unfold disconnectWriter. cbn [pw setPw setEnt wconn setCur]. rewrite K.
      unfold deleteWriter, specificWriterDelete. cbn [setLimbo setPw setEnt pinfo pent]. rewrite I. reflexivity.
Qed.

(* A port whose output is disconnected right after a frame was handed over,
   before the next request, can be connected again: the state is idle, so
   C49_delivery_partial applies to it. *)
Theorem C50_reconnect_partial : forall p s w,
  reachable p -> pent p = Live s -> pw p = Some w -> free s = true -> asked s = None ->
  exists p', step ODisc p = Ok (p', None) /\ idle p' /\ ~ requested p' /\ pout p' = pout p /\
    pnext p' = pnext p /\ reachable p'.
Proof.
  intros p s w R E W F A. pose proof (reachable_inv p R) as (RA & _).
  destruct (RA w W) as (_ & I & _).
  assert (X : step ODisc p = Ok (setEnt (setPw (if wconn w then setLimbo p (wq w :: plimbo p) else p) None)
            (Live (sinkDisconnect s)), None)).
  { cbn [step]. unfold disconnectWriter. rewrite W. unfold deleteWriter, specificWriterDelete.
    destruct (wconn w); cbn [setLimbo setPw pinfo pent]; rewrite I, E; reflexivity. }
  eexists. split; [exact X|]. split; [|split; [|split; [|split]]].
  - exists (sinkDisconnect s). destruct (wconn w); cbn; auto.
  - intros (s' & E' & A'). destruct (wconn w); cbn in E'; injection E' as <-; cbn in A'; congruence.
  - destruct (wconn w); reflexivity.
  - destruct (wconn w); reflexivity.
  - destruct R as (ops & l & Su & Rn). exists (ops ++ [ODisc]). eexists. split.
    2: { rewrite run_app, Rn. cbn [bind run]. rewrite X. cbn [bind]. reflexivity. }
    assert (SA : forall o q l0, supportedAll o q -> run o q = Ok (p, l0) ->
      supportedAll (o ++ [ODisc]) q).
    { induction o as [|a o IH]; intros q l0 S0 R0; cbn [app supportedAll].
      - cbn [run] in R0. injection R0 as -> _. rewrite X. split; [|exact Logic.I].
        unfold supported. split; [discriminate|]. split; [discriminate|].
        intros q0 _ (s' & k & E' & A'). congruence.
      - destruct S0 as (S0 & S1). split; [exact S0|].
        cbn [run] in R0. destruct (step a q) as [[q1 g1]|]; [|exact Logic.I].
        cbn [bind] in R0. destruct (run o q1) as [[q2 l2]|] eqn:Q; [|discriminate].
        cbn [bind] in R0. injection R0 as -> _. eapply IH; eauto. }
    eapply SA; eauto.
Qed.

(* Not vacuous: a supported history with two connections, a disconnection
   and the removal of the session. *)
Example C50_case :
  let ops := [OAdd; OConnect 4; ORound (Some (EData [1] 10)); ODisc; OLeaveOld 0;
              ORound (Some ETask); ORemove; OAdd; OConnect 8] in
  supportedAll ops port0 /\
  exists p l, run ops port0 = Ok (p, l) /\ pnext p = 2.
Proof.
  cbv zeta. split.
  - cbn. unfold supported. repeat split; try discriminate; cbn; try tauto;
    try (intros q (w & H & G & C); try discriminate; injection H as <-; discriminate).
    intros q _ (s & k & E & A). cbn in E. injection E as <-. discriminate.
  - do 2 eexists. split; vm_compute; reflexivity.
Qed.

(* Not vacuous: the state all the refutations start from. *)
Example C50_filling_case :
  let ops := [OAdd; OConnect 4; ORound (Some (EData [1] 10)); ORound (Some ETask)] in
  supportedAll ops port0 /\
  exists p l w, run ops port0 = Ok (p, l) /\ pw p = Some w /\ wconn w = true /\ filling (wq w) p.
Proof.
  cbv zeta. split.
  - cbn. unfold supported. repeat split; try discriminate; cbn; try tauto;
    intros q (w & H & G & C); try discriminate; injection H as <-; discriminate.
  - do 3 eexists. split; [vm_compute; reflexivity|]. split; [reflexivity|]. split; [reflexivity|].
    do 2 eexists. split; reflexivity.
Qed.

(* The silent port, from the start: connected again after a disconnection
   while waiting, data keep arriving and none is handed over. *)
Example C50_silent_case :
  exists p l, run [OAdd; OConnect 4; ORound (Some (EData [1] 10)); ORound (Some ETask);
                   ODisc; OConnect 4; ORound (Some (EData [2] 20)); ORound (Some ETask);
                   ORound (Some (EData [3] 30)); ORound (Some ETask); ORound (Some (EData [4] 40))] port0
              = Ok (p, l) /\ length l = 4%nat /\ length (pout p) = 1%nat.
Proof. do 2 eexists. split; [vm_compute; reflexivity|]. split; reflexivity. Qed.

Print Assumptions C49_delivery_partial.
Print Assumptions C49_first_frame_refuted.
Print Assumptions C49_first_length_refuted.
Print Assumptions C49_never_stalls.
Print Assumptions C49_next_request.
Print Assumptions C50_safe_partial.
Print Assumptions C50_reconnect_refuted.
Print Assumptions C50_awaited_refuted.
Print Assumptions C50_removal_refuted.
Print Assumptions C50_bye_refuted.
Print Assumptions C50_reconnect_partial.
