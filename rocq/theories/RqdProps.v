(** C107: an output of the receiver is made for the stream that arrives there. *)
From Coq Require Import Ascii String Lia ZArith List Bool.
From Verif Require Import Base JsonModel CtlModel NamesModel SdpModel AnnModel RqdModel RqdSpec RqdProofs.
Import ListNotations.
Local Open Scope list_scope.
Local Open Scope Z_scope.

(** Whatever happens: an output that is connected was made for a stream that some session had on its port. *)
Theorem C107_some_stream_of_the_port : forall es w p i, run es world0 = Some w -> In (p, i) (outs w) -> exists h, announced p es h /\ createStreamInfo h = Some i.
Proof. intros es w p i R J. exact (i_out es w (reach_inv es w R) p i J). Qed.

(** The first time an output of a port is asked for, with one session on the port: it is made for the stream that arrives. *)
Theorem C107_first_time_partial : forall es w p h, run es world0 = Some w -> ~ In (Connect p) es -> arrives w p h ->
  (forall s k, In s (sessions w) -> In (p, k) (sSubs s) -> k = h) -> get p (outs w) = None -> madeFor (snd (connect p w)) h.
Proof.
  intros es w p h R N A U O. pose proof (reach_inv es w R) as I. apply connect_madeFor; [exact O|unfold arrives in A; congruence|]. unfold infoOf.
  rewrite (run_infos es p world0 w R N eq_refl). destruct (i_own es w I p h (get_in _ _ _ A)) as (s & h' & S1 & S2). destruct (byPort_some p _ s h' S1 S2) as (k & K). rewrite K. cbn [fst].
  destruct (byPort_in p _ k K) as (t & T1 & T2). rewrite (U t k T1 T2). reflexivity.
Qed.

(** Any time, if all streams that sessions ever had on the port are alike. *)
Theorem C107_same_stream_partial : forall es w p h, run es world0 = Some w -> arrives w p h ->
  (forall k, announced p es k -> createStreamInfo k = createStreamInfo h) -> get p (outs w) = None -> madeFor (snd (connect p w)) h.
Proof.
  intros es w p h R A U O. pose proof (reach_inv es w R) as I. apply connect_madeFor; [exact O|unfold arrives in A; congruence|]. unfold infoOf.
  destruct (get p (infos w)) as [i|] eqn:G.
  - destruct (i_inf es w I p i (get_in _ _ _ G)) as (k & K1 & <-). cbn [fst]. apply U, K1.
  - destruct (i_own es w I p h (get_in _ _ _ A)) as (s & h' & S1 & S2). destruct (byPort_some p _ s h' S1 S2) as (k & K). rewrite K. cbn [fst].
    destruct (byPort_in p _ k K) as (t & T1 & T2). apply U. exact (i_ses es w I t p k T1 T2).
Qed.

(** A port without a sink has no output. *)
Theorem C107_no_sink_no_output : forall w p, get p (sinks w) = None -> connect p w = (w, None).
Proof. intros w p S. unfold connect. rewrite S. destruct (get p (outs w)); reflexivity. Qed.

Definition hVideo : heard := mkHeard (lit "video") 96 (lit "H264") 90000 1.
Definition hSound : heard := mkHeard (lit "audio") 97 (lit "OPUS") 48000 2.
Definition hOdd : heard := mkHeard (lit "video") 98 (lit "H263") 90000 1.
Definition iVideo : info := IVideo H264 true true.
Definition iSound : info := IAudio OPUS S16 48000 2.

Example C107_case : exists w, run [AddS 1 [(5004, hVideo); (5006, hSound)]; Connect 5004] world0 = Some w /\ arrives w 5006 hSound /\ get 5006 (outs w) = None /\
  snd (connect 5006 w) = Some iSound /\ outs w = [(5004, iVideo)] /\ madeFor (Some iSound) hSound.
Proof. eexists. split; [vm_compute; reflexivity|]. vm_compute. repeat split. Qed.

(** A port that had another stream before: the output is made for the old one. *)
Theorem C107_port_again_refuted : forall p h1 h2 i1, createStreamInfo h1 = Some i1 -> queueMade i1 = true -> createStreamInfo h2 <> Some i1 ->
  exists w, run [AddS 1 [(p, h1)]; Connect p; Disconnect p; Remove 1; AddS 2 [(p, h2)]] world0 = Some w /\ arrives w p h2 /\
    (forall s k, In s (sessions w) -> In (p, k) (sSubs s) -> k = h2) /\ snd (connect p w) = Some i1 /\ ~ madeFor (snd (connect p w)) h2.
Proof.
  intros p h1 h2 i1 C1 Q1 C2.
  assert (E1 : step (AddS 1 [(p, h1)]) world0 = Some (mkR [mkSe 1 [(p, h1)]] [(p, h1)] [] [])) by reflexivity.
  assert (E2 : step (Connect p) (mkR [mkSe 1 [(p, h1)]] [(p, h1)] [] []) = Some (mkR [mkSe 1 [(p, h1)]] [(p, h1)] [(p, Some i1)] [(p, i1)])).
  { cbn [step]. unfold connect, infoOf. cbn [outs get sinks infos sessions byPort sSubs]. rewrite Z.eqb_refl. rewrite C1, Q1. reflexivity. }
  assert (E3 : step (Disconnect p) (mkR [mkSe 1 [(p, h1)]] [(p, h1)] [(p, Some i1)] [(p, i1)]) = Some (mkR [mkSe 1 [(p, h1)]] [(p, h1)] [(p, Some i1)] [])).
  { cbn [step]. unfold disconnect, drop. cbn [sessions sinks infos outs filter fst]. rewrite Z.eqb_refl. reflexivity. }
  assert (E4 : step (Remove 1) (mkR [mkSe 1 [(p, h1)]] [(p, h1)] [(p, Some i1)] []) = Some (mkR [] [] [(p, Some i1)] [])).
  { cbn [step]. unfold removeSession. change (filter (fun s => sName s =? 1) (sessions (mkR [mkSe 1 [(p, h1)]] [(p, h1)] [(p, Some i1)] []))) with [mkSe 1 [(p, h1)]].
    cbv iota beta. cbn [sSubs existsb sinks outs fst get infos fold_left]. unfold drop. cbn [filter fst]. rewrite Z.eqb_refl. cbn [orb negb]. reflexivity. }
  exists (mkR [mkSe 2 [(p, h2)]] [(p, h2)] [(p, Some i1)] []). split.
  - cbn [run]. rewrite E1, E2, E3, E4. reflexivity.
  - unfold arrives. cbn [sinks get]. rewrite Z.eqb_refl. split; [reflexivity|]. split.
    + cbn [sessions In]. intros s k [<-|[]]. cbn [sSubs In]. intros [E|[]]. congruence.
    + assert (X : forall w, sinks w = [(p, h2)] -> outs w = [] -> infos w = [(p, Some i1)] -> snd (connect p w) = Some i1).
      { intros w S O F. unfold connect, infoOf. rewrite S, O, F. cbn [get]. rewrite Z.eqb_refl, Q1. reflexivity. }
      rewrite X by reflexivity. split; [reflexivity|]. unfold madeFor. destruct (createStreamInfo h2) as [j|]; [|discriminate]. destruct (queueMade j); congruence.
Qed.
Example C107_port_again_case : createStreamInfo hVideo = Some iVideo /\ queueMade iVideo = true /\ createStreamInfo hSound <> Some iVideo.
Proof. vm_compute. repeat split. discriminate. Qed.

Lemma none_stays p : forall fs w, get p (infos w) = Some None -> forall w', run fs w = Some w' -> get p (infos w') = Some None /\ snd (connect p w') = None.
Proof.
  assert (S1 : forall e w w', get p (infos w) = Some None -> step e w = Some w' -> get p (infos w') = Some None).
  { intros e w w' G E. destruct e as [n l|n|q|q]; cbn [step] in E.
    - injection E as <-. unfold addSession. destruct (existsb _ _); exact G.
    - unfold removeSession in E. destruct (filter _ (sessions w)) as [|s r]; [injection E as <-; exact G|]. destruct (existsb _ (sSubs s)); [discriminate|]. injection E as <-. exact G.
    - injection E as <-. unfold connect. destruct (get q (outs w)); [exact G|]. destruct (get q (sinks w)) as [hs|]; [|exact G]. unfold infoOf.
      destruct (get q (infos w)) as [[i|]|] eqn:Q; [destruct (queueMade i); exact G|exact G|]. assert (N : q <> p) by congruence. apply Z.eqb_neq in N.
      destruct (byPort q (sessions w)) as [h|]; [|exact G]. destruct (createStreamInfo h) as [i|]; [destruct (queueMade i)|]; cbn [fst infos get]; rewrite N; exact G.
    - injection E as <-. exact G. }
  induction fs as [|e fs IH]; intros w G w' F; cbn [run] in F.
  - injection F as <-. split; [exact G|]. unfold connect, infoOf. rewrite G. destruct (get p (outs w)), (get p (sinks w)); reflexivity.
  - destruct (step e w) as [w1|] eqn:E; [|discriminate]. exact (IH w1 (S1 e w w1 G E) w' F).
Qed.
(** A port that had a stream of an unknown codec the first time its output was asked for: it is refused for ever, whatever stream arrives later. *)
Theorem C107_refused_for_ever_refuted : forall es w p h, run es world0 = Some w -> ~ In (Connect p) es -> arrives w p h ->
  (forall s k, In s (sessions w) -> In (p, k) (sSubs s) -> k = h) -> createStreamInfo h = None -> get p (outs w) = None ->
  forall fs w', run (Connect p :: fs) w = Some w' -> snd (connect p w') = None.
Proof.
  intros es w p h R N A U C O fs w' F. pose proof (reach_inv es w R) as I. cbn [run step] in F. refine (proj2 (none_stays p fs _ _ w' F)).
  unfold connect, infoOf. rewrite O. unfold arrives in A. rewrite A. rewrite (run_infos es p world0 w R N eq_refl).
  destruct (i_own es w I p h (get_in _ _ _ A)) as (s & h' & S1 & S2). destruct (byPort_some p _ s h' S1 S2) as (k & K). rewrite K.
  destruct (byPort_in p _ k K) as (t & T1 & T2). rewrite (U t k T1 T2), C. cbn [fst infos get]. rewrite Z.eqb_refl. reflexivity.
Qed.
Example C107_refused_case : (exists w, run [AddS 1 [(5004, hOdd)]] world0 = Some w /\ arrives w 5004 hOdd /\ get 5004 (outs w) = None) /\ createStreamInfo hOdd = None /\
  exists w, run [AddS 1 [(5004, hOdd)]; Connect 5004; Remove 1; AddS 2 [(5004, hVideo)]] world0 = Some w /\ arrives w 5004 hVideo /\ snd (connect 5004 w) = None /\ ~ madeFor None hVideo.
Proof. split; [|split; [reflexivity|]]; eexists; (split; [vm_compute; reflexivity|]); vm_compute; repeat split. discriminate. Qed.

(** Two sessions with the same port: the stream of the one that came first arrives, the output is made for that of the one whose name is first. *)
Theorem C107_two_sessions_refuted : exists es w, run es world0 = Some w /\ ~ In (Connect 5004) es /\ arrives w 5004 hVideo /\ snd (connect 5004 w) = Some iSound.
Proof. exists [AddS 2 [(5004, hVideo)]; AddS 1 [(5004, hSound)]]. eexists. split; [vm_compute; reflexivity|]. split; [intros [E|[E|[]]]; discriminate|]. vm_compute. split; reflexivity. Qed.

Print Assumptions C107_some_stream_of_the_port.
Print Assumptions C107_first_time_partial.
Print Assumptions C107_same_stream_partial.
Print Assumptions C107_no_sink_no_output.
Print Assumptions C107_port_again_refuted.
Print Assumptions C107_refused_for_ever_refuted.
Print Assumptions C107_two_sessions_refuted.
