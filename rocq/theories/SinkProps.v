(** C41: network connections have unique identifiers and release their inputs. *)
From Coq Require Import Permutation.
From Verif Require Import Base ZMap SinkModel SinkSpec SinkProofs.
Local Open Scope list_scope.
Local Open Scope Z_scope.

(** After every history of requests: identifiers are distinct; every connection object ever created is either the
    object of exactly one connection, or was destroyed exactly once, or was lost (see below), never two of these;
    and every input that a connection lists exists and is used by it. *)
Theorem C41_bookkeeping_partial : forall server max os s, srun server max os newSinks = Some s ->
  NoDup (mkeys (scon s)) /\
  NoDup (live s ++ srel s ++ sleak s) /\ (forall o, In o (live s ++ srel s ++ sleak s) <-> 0 <= o < snext s) /\
  (forall id c r, mfind id (scon s) = Some c -> In r (clisted c) -> uses c r /\ exists_ r s) /\
  (forall id c r, mfind id (scon s) = Some c -> uses c r -> r <> -1 -> exists_ r s).
Proof.
  intros server max os s R. pose proof (run_inv server max os newSinks s inv_new R) as [[A B C D E F] IS IO].
  split; [apply (mkeys_nodup _ None C)|]. split; [exact D|]. split; [exact F|]. split.
  - intros id c r M L. destruct (IO id c M) as (_ & X & _). apply X, L.
  - intros id c r M U N. destruct (IO id c M) as (_ & X & Y). apply X, Y; assumption.
Qed.
(** An identifier in use is refused, and nothing changes. *)
Theorem C41_identifier_in_use : forall server ok rs id f s, mfind id (scon s) <> None ->
  addRTP ok rs id f s = Done false s /\ addRTSP server ok rs id f s = Done false s.
Proof.
  intros server ok rs id f s N. unfold addRTP, addRTSP, mmem. destruct (mfind id (scon s)); [|congruence].
  split; [reflexivity|]. destruct (negb server); [reflexivity|]. destruct rs; reflexivity.
Qed.
(** A request that succeeds was for inputs that all exist; it adds one connection, under the identifier asked for,
    that uses only these inputs, and changes no other. One that fails changes no connection. *)
Theorem C41_add : forall server max os s o id rs b s', srun server max os newSinks = Some s ->
  (exists ok f, o = ORtp ok rs id f \/ o = ORtsp ok rs id f) -> sstep server max o s = Done b s' ->
  (b = true -> mfind id (scon s) = None /\ (forall r, In r rs -> exists_ r s) /\
     exists c, mfind id (scon s') = Some c /\ (forall r, uses c r -> In r rs) /\ ~ In (cobj c) (live s ++ srel s ++ sleak s)) /\
  (b = false -> scon s' = scon s) /\ (forall id', id' <> id -> mfind id' (scon s') = mfind id' (scon s)) /\ srd s' = srd s /\ ssrc s' = ssrc s.
Proof.
  intros server max os s o id rs b s' R (ok & f & O) D. pose proof (run_inv server max os newSinks s inv_new R) as I.
  assert (A : added s id rs b s').
  { destruct O as [-> | ->]; cbn [sstep] in D; [apply addRTP_added in D|apply addRTSP_added in D]; apply D. }
  destruct A as [|N|N|used listed N OK IC EX].
  - repeat split; congruence.
  - repeat split; congruence.
  - repeat split; congruence.
  - split; [|split; [congruence|]].
    + intros _. split; [exact N|]. split; [exact EX|]. exists (mkC (snext s) used listed). unfold keep. cbn [scon]. rewrite mfind_mset, Z.eqb_refl.
      split; [reflexivity|]. split; [exact IC|]. cbn [cobj]. intros X. apply (i_all s (i_0 s I)) in X. lia.
    + split; [|split; reflexivity]. intros id' X. unfold keep. cbn [scon]. rewrite mfind_mset. destruct (Z.eqb_spec id' id); [congruence|reflexivity].
Qed.
(** For RTSP and for single-input RTP the connection uses all the inputs asked for. *)
Theorem C41_add_all_inputs_partial : forall server max s o id rs f b s', (exists ok, o = ORtp ok rs id f /\ f <> MpegTs \/ o = ORtsp ok rs id f) ->
  sstep server max o s = Done b s' -> b = true -> exists c, mfind id (scon s') = Some c /\ cused c = rs.
Proof.
  intros server max s o id rs f b s' (ok & O) D B. subst b. destruct O as [(-> & NF)| ->]; cbn [sstep] in D.
  - assert (S1 : exists r sup, rs = [r] /\ exists_ r s /\ mfind id (scon s) = None /\ addSingle ok r id sup s = Done true s').
    { unfold addRTP in D. destruct (mmem id (scon s)) eqn:E; [discriminate|]. apply mmem_none in E.
      match type of D with context [negb ?x] => destruct x eqn:FA; cbn [negb] in D; [|discriminate] end.
      destruct f; try congruence; destruct rs as [|r [|? ?]]; try discriminate; exists r; eexists; (split; [reflexivity|]);
        (split; [cbn [forallb] in FA; destruct (getReader r s) eqn:G; [apply (getReader_exists _ _ _ G)|discriminate]|]); (split; [exact E|exact D]). }
    destruct S1 as (r & sup & -> & X & N & D'). destruct (addSingle_added _ _ _ _ _ _ _ N X D') as (_ & _ & H). rewrite (H eq_refl).
    eexists. split; [rewrite mfind_mset, Z.eqb_refl; reflexivity|reflexivity].
  - destruct (addRTSP_added _ _ _ _ _ _ _ _ D) as (_ & _ & H). destruct (H eq_refl) as (l & ->).
    eexists. split; [rewrite mfind_mset, Z.eqb_refl; reflexivity|reflexivity].
Qed.
(** Not so for MPEG-TS over RTP: an input with an unsupported codec is silently left out. *)
Theorem C41_mpegts_input_dropped_refuted : exists os s id rs s' c, srun true 10 os newSinks = Some s /\
  sstep true 10 (ORtp true rs id MpegTs) s = Done true s' /\ mfind id (scon s') = Some c /\ exists r, In r rs /\ ~ In r (cused c).
Proof.
  exists [OReader 1 VVP8; OReader 2 AAAC]. eexists. exists 7, [1; 2]. eexists. eexists. split; [vm_compute; reflexivity|].
  split; [vm_compute; reflexivity|]. split; [vm_compute; reflexivity|]. exists 1. split; [left; reflexivity|]. cbn. lia.
Qed.
(** An MPEG-TS connection of one video input, one audio input or one of each, in codecs that MPEG-TS carries, under a free identifier: it is accepted if its sockets
    can be opened, and it plays exactly these inputs. Missing: any other input is left out without a word when the last one fits (refuted above). *)
Theorem C41_mpegts_accepted_partial : forall server max os s id v a mv ma rs, srun server max os newSinks = Some s -> mfind id (scon s) = None ->
  mfind v (srd s) = Some (Some mv) -> mv = VH264 \/ mv = VH265 -> mfind a (srd s) = Some (Some ma) -> ma = AAAC \/ ma = AMP3 ->
  rs = [v] \/ rs = [a] \/ rs = [v; a] \/ rs = [a; v] ->
  exists s' c, sstep server max (ORtp true rs id MpegTs) s = Done true s' /\ mfind id (scon s') = Some c /\ cused c = rs.
Proof.
  intros server max os s id v a mv ma rs R N V MV A MA RS. pose proof (run_inv server max os newSinks s inv_new R) as I.
  assert (SV : mmem v (ssrc s) = true) by (apply (i_srcs s I); exists mv; exact V). assert (SA : mmem a (ssrc s) = true) by (apply (i_srcs s I); exists ma; exact A).
  assert (GV : getReader v s = Some mv) by (unfold getReader; rewrite V; reflexivity). assert (GA : getReader a s = Some ma) by (unfold getReader; rewrite A; reflexivity).
  cbn [sstep]. unfold addRTP. unfold mmem at 1. rewrite N.
  destruct RS as [-> | [-> | [-> | ->]]]; cbn [forallb]; rewrite ?GV, ?GA; cbn [andb negb tsLoop]; rewrite ?GV, ?GA, ?SV, ?SA; cbn [negb];
    destruct MV as [-> | ->]; destruct MA as [-> | ->]; cbn [isVideo isAudio andb negb Z.eqb];
    (eexists; eexists; split; [reflexivity|]; unfold keep; cbn [scon]; rewrite mfind_mset_eq; split; reflexivity).
Qed.
Example C41_mpegts_accepted_ex : exists s, srun true 10 [OReader 1 AMP3; OReader 2 VH265] newSinks = Some s /\ mfind 1 (srd s) = Some (Some AMP3) /\ mfind 2 (srd s) = Some (Some VH265) /\ mfind 7 (scon s) = None.
Proof. eexists. repeat split; reflexivity. Qed.
(** Removing an input removes every connection that uses it and no other, and destroys each of them. *)
Theorem C41_remove_input_partial : forall server max os s r b s', srun server max os newSinks = Some s -> exists_ r s -> r <> -1 ->
  sstep server max (ODelReader r) s = Done b s' ->
  ~ exists_ r s' /\
  (forall id c, mfind id (scon s) = Some c -> uses c r -> mfind id (scon s') = None /\ In (cobj c) (srel s') /\ ~ In (cobj c) (srel s)) /\
  (forall id c, mfind id (scon s) = Some c -> ~ uses c r -> mfind id (scon s') = Some c) /\
  (forall id c, mfind id (scon s') = Some c -> ~ uses c r) /\
  (b = true <-> exists id c, mfind id (scon s) = Some c /\ uses c r).
Proof.
  intros server max os s r b s' R (m & X) N D. pose proof (run_inv server max os newSinks s inv_new R) as I. cbn [sstep] in D.
  destruct (deleteReader_spec r s b s' I D ltac:(congruence)) as (I' & E1 & _ & E2 & E3 & E4 & _).
  assert (IC := i_con s (i_0 s I)).
  assert (U : forall id c, mfind id (scon s) = Some c -> (uses c r <-> In r (clisted c))).
  { intros id c F. destruct (i_ok s I id c F) as (_ & B & C). split; [intros Y; apply C; assumption|intros Y; apply B, Y]. }
  assert (IN : forall id c, mfind id (scon s) = Some c -> (existsb (Z.eqb id) (connsOf r s) = true <-> uses c r)).
  { intros id c F. rewrite existsb_in, connsOf_in by exact IC. rewrite (U id c F). split; [intros (c' & F' & Y); congruence|intros Y; exists c; split; assumption]. }
  split. { intros (m' & Y). rewrite E1, mfind_mdel in Y by apply (i_rd s (i_0 s I)). rewrite Z.eqb_refl in Y. discriminate. }
  split. { intros id c F Y. split; [rewrite E2, (proj2 (IN id c F) Y); reflexivity|]. split; [apply (E3 id c F), (U id c F), Y|].
    intros Z0. pose proof (i_once s (i_0 s I)) as ND. unfold acct in ND.
    assert (L : In (cobj c) (live s)) by (unfold live; apply (in_map (fun ic => cobj (snd ic)) (scon s) (id, c)); apply mfind_In, F).
    apply (in_split) in L. destruct L as (l1 & l2 & L). rewrite L in ND. rewrite <- app_assoc in ND. cbn [app] in ND. apply NoDup_remove_2 in ND. apply ND.
    apply in_or_app. right. apply in_or_app. right. apply in_or_app. left. exact Z0. }
  split. { intros id c F Y. rewrite E2. destruct (existsb (Z.eqb id) (connsOf r s)) eqn:EB; [apply (IN id c F) in EB; contradiction|exact F]. }
  split. { intros id c F Y. rewrite E2 in F. destruct (existsb (Z.eqb id) (connsOf r s)) eqn:EB; [discriminate|]. apply (IN id c F) in Y. congruence. }
  rewrite E4. split.
  - intros NE. destruct (connsOf r s) as [|i l] eqn:EC; [congruence|]. assert (In i (connsOf r s)) as Y by (rewrite EC; left; reflexivity).
    apply connsOf_in in Y; [|exact IC]. destruct Y as (c & F & Y). exists i, c. split; [exact F|]. apply (U i c F), Y.
  - intros (id & c & F & Y) EC. apply (U id c F) in Y. assert (In id (connsOf r s)) as Z0 by (apply connsOf_in; [exact IC|]; exists c; split; assumption).
    rewrite EC in Z0. destruct Z0.
Qed.
(** Removing a connection. *)
Theorem C41_remove_connection : forall server max os s id b s', srun server max os newSinks = Some s ->
  sstep server max (ORemove id) s = Done b s' ->
  (b = true <-> mfind id (scon s) <> None) /\ mfind id (scon s') = None /\ (forall id', id' <> id -> mfind id' (scon s') = mfind id' (scon s)) /\
  (forall c, mfind id (scon s) = Some c -> srel s' = srel s ++ [cobj c]) /\ srd s' = srd s.
Proof.
  intros server max os s id b s' R D. pose proof (run_inv server max os newSinks s inv_new R) as I. cbn [sstep] in D.
  destruct (removeConnection_inv id s b s' I D) as (_ & A & _ & B & C & E). split; [exact B|]. rewrite C.
  split; [rewrite mfind_mdel by apply (i_con s (i_0 s I)); rewrite Z.eqb_refl; reflexivity|].
  split; [|split; assumption]. intros id' N. apply mfind_mdel_neq. exact N.
Qed.
(** An input is accepted exactly if its identifier is free, there is room for it and its medium can be sent (a video codec that cannot be is accepted
    when a source of an earlier input with that identifier was left). The other inputs and the connections are as before. *)
Theorem C41_add_input : forall server max os s r m b s', srun server max os newSinks = Some s -> sstep server max (OReader r m) s = Done b s' ->
  (b = true <-> mfind r (srd s) = None /\ Z.of_nat (length (srd s)) < max /\ m <> NoMedia /\ (m = VOther -> mfind r (ssrc s) <> None)) /\
  (b = true -> mfind r (srd s') = Some (Some m) /\ mfind r (ssrc s') <> None) /\
  (mfind r (srd s) <> None -> s' = s) /\
  scon s' = scon s /\ (forall r', r' <> r -> mfind r' (srd s') = mfind r' (srd s) /\ mfind r' (ssrc s') = mfind r' (ssrc s)).
Proof.
  intros server max os s r m b s' R D. cbn [sstep] in D. unfold addReader in D.
  destruct ((max <=? Z.of_nat (length (srd s))) || mmem r (srd s)) eqn:G.
  - injection D as <- <-. apply orb_true_iff in G. split; [split; [discriminate|]|split; [discriminate|repeat split]].
    intros (N & M & _). exfalso. destruct G as [G|G]; [apply Z.leb_le in G; lia|]. unfold mmem in G. rewrite N in G. discriminate.
  - apply orb_false_iff in G. destruct G as [G1 G2]. apply Z.leb_gt in G1. unfold mmem in G2. destruct (mfind r (srd s)) eqn:N; [discriminate|].
    unfold readerConfig, mmem in D. destruct m; injection D as <- <-; cbn [srd ssrc scon]; (split; [|split; [|split; [congruence|split; [reflexivity|]]]]);
      try (intros r' NE; rewrite !mfind_mset_neq by exact NE; split; reflexivity);
      try (intros _; rewrite !mfind_mset_eq; split; [reflexivity|discriminate]);
      try (split; [intros _; repeat split; try assumption; discriminate | reflexivity]);
      try (split; [discriminate | intros (_ & _ & X & _); congruence]); try discriminate.
    + destruct (mfind r (ssrc s)) eqn:W; split; try reflexivity; try discriminate; intros X.
      * repeat split; try assumption; discriminate.
      * destruct X as (_ & _ & _ & X). exfalso. apply X; reflexivity.
    + destruct (mfind r (ssrc s)) eqn:W; [|discriminate]. intros _. rewrite mfind_mset_eq. split; [reflexivity|discriminate].
Qed.
Example C41_add_input_ex : exists s s', srun true 2 [OReader 1 VH264] newSinks = Some s /\ sstep true 2 (OReader 7 AAAC) s = Done true s' /\ sstep true 2 (OReader 1 VVP8) s = Done false s /\
  sstep true 2 (OReader 3 VH264) s' = Done false s'.
Proof. eexists. eexists. repeat split; reflexivity. Qed.
(** No request crashes, except removing an input whose connection to the transmitter had been refused. *)
Theorem C41_no_crash_partial : forall server max os s o, srun server max os newSinks = Some s ->
  (sstep server max o s = Crash <-> exists r, o = ODelReader r /\ mfind r (srd s) = Some None).
Proof.
  intros server max os s o R. pose proof (run_inv server max os newSinks s inv_new R) as I.
  assert (SG : forall ok r id sup, addSingle ok r id sup s <> Crash).
  { intros ok r id sup. unfold addSingle. destruct (getReader r s) as [m|] eqn:G; [|discriminate].
    rewrite (i_srcs s I r (getReader_exists _ _ _ G)). cbn [negb]. destruct m; try discriminate; match goal with |- (if ?c then _ else _) <> _ => destruct c; discriminate end. }
  split.
  - intros C. destruct o; cbn [sstep] in C.
    + unfold addReader in C. destruct (_ || _); [discriminate|]. destruct (readerConfig r m s). discriminate.
    + exists r. split; [reflexivity|]. unfold deleteReader in C. destruct (mfind r (srd s)) as [[m|]|]; [|reflexivity|discriminate]. destruct (readerDelete _ _). discriminate.
    + exfalso. unfold addRTSP in C. destruct (negb server); [discriminate|]. destruct rs; [discriminate|]. destruct (mmem id (scon s)); [discriminate|].
      match type of C with match ?x with _ => _ end = _ => destruct x; [destruct ok|]; discriminate end.
    + exfalso. unfold addRTP in C. destruct (mmem id (scon s)); [discriminate|]. destruct (negb _); [discriminate|]. destruct f.
      * destruct rs as [|? [|? ?]]; try discriminate. apply (SG _ _ _ _ C).
      * destruct rs as [|? [|? ?]]; try discriminate. apply (SG _ _ _ _ C).
      * destruct rs as [|? [|? [|? ?]]]; try discriminate;
          match type of C with context [tsLoop ?x1 ?x2 ?x3 ?x4 ?x5 ?x6 ?x7 ?x8] => destruct (tsLoop x1 x2 x3 x4 x5 x6 x7 x8) as [[[suc a] v] used] end; destruct suc; try discriminate; destruct ok; discriminate.
    + unfold removeConnection in C. destruct (mfind id (scon s)); discriminate.
  - intros (r & -> & F). cbn [sstep]. unfold deleteReader. rewrite F. reflexivity.
Qed.
Theorem C41_refused_input_crash_refuted : exists os s, srun true 10 os newSinks = Some s /\ sstep true 10 (ODelReader 3) s = Crash.
Proof. exists [OReader 3 VOther]. eexists. split; vm_compute; reflexivity. Qed.
(** Removing an input that no connection uses reports failure and leaves its source open. *)
Theorem C41_unused_input_kept_refuted : forall server max os s r, srun server max os newSinks = Some s -> exists_ r s ->
  (forall id c, mfind id (scon s) = Some c -> ~ In r (clisted c)) ->
  exists s', sstep server max (ODelReader r) s = Done false s' /\ mfind r (srd s') = None /\ mfind r (ssrc s') <> None /\ sclosed s' = sclosed s.
Proof.
  intros server max os s r R X N. pose proof (run_inv server max os newSinks s inv_new R) as I.
  assert (EC : connsOf r s = []).
  { destruct (connsOf r s) as [|i l] eqn:EC; [reflexivity|]. assert (In i (connsOf r s)) as Y by (rewrite EC; left; reflexivity).
    apply connsOf_in in Y; [|apply (i_con s (i_0 s I))]. destruct Y as (c & F & Y). destruct (N i c F Y). }
  destruct (sstep server max (ODelReader r) s) as [b s'|] eqn:D.
  2:{ apply (C41_no_crash_partial server max os s _ R) in D. destruct D as (r' & E & F). injection E as <-. destruct X as (m & X). congruence. }
  cbn [sstep] in D. assert (NF : mfind r (srd s) <> None) by (destruct X as (m & X); congruence).
  destruct (deleteReader_spec r s b s' I D NF) as (_ & E1 & _ & _ & _ & E4 & _ & E6 & _).
  assert (b = false) as -> by (destruct b; [exfalso; apply E4; [reflexivity|exact EC]|reflexivity]).
  exists s'. split; [reflexivity|]. destruct (E6 eq_refl) as (E7 & _ & E8).
  split; [rewrite E1, mfind_mdel by apply (i_rd s (i_0 s I)); rewrite Z.eqb_refl; reflexivity|]. split; [|exact E8].
  rewrite E7. pose proof (i_srcs s I r X) as M. unfold mmem in M. destruct (mfind r (ssrc s)); [discriminate|discriminate].
Qed.
(** The source left behind makes the transmitter accept an input later that it cannot send. *)
Theorem C41_stale_source_refuted : exists os s s', srun true 10 os newSinks = Some s /\
  sstep true 10 (OReader 1 VOther) newSinks = Done false (mkS [(1, None)] [] [] 0 0 [] [] []) /\ sstep true 10 (OReader 1 VOther) s = Done true s'.
Proof. exists [OReader 1 VH264; ODelReader 1]. eexists. eexists. split; [vm_compute; reflexivity|]. split; vm_compute; reflexivity. Qed.
(** Connection objects are lost only by refused MPEG-TS requests over RTP; and those do lose them. *)
Theorem C41_lost_objects : forall server max os o s b s', srun server max os newSinks = Some s -> sstep server max o s = Done b s' ->
  sleak s' <> sleak s -> exists ok rs id, o = ORtp ok rs id MpegTs.
Proof.
  intros server max os o s b s' R D L. pose proof (run_inv server max os newSinks s inv_new R) as I. destruct o; cbn [sstep] in D.
  - destruct (addReader_inv _ _ _ _ _ _ I D) as (_ & _ & _ & E). congruence.
  - exfalso. destruct (mfind r (srd s)) as [x|] eqn:F.
    + apply (deleteReader_spec r s b s' I) in D; [|congruence]. apply L, D.
    + unfold deleteReader in D. rewrite F in D. injection D as <- <-. congruence.
  - exfalso. apply addRTSP_added in D. apply L, D.
  - destruct f; [| |exists ok, rs, id; reflexivity]; exfalso; apply addRTP_added in D; apply L; apply D; discriminate.
  - exfalso. unfold removeConnection in D. destruct (mfind id (scon s)); injection D as <- <-; apply L; reflexivity.
Qed.
Theorem C41_lost_object_refuted : exists os s, srun true 10 os newSinks = Some s /\ sleak s <> [].
Proof. exists [OReader 1 VVP8; ORtp true [1] 5 MpegTs]. eexists. split; [vm_compute; reflexivity|]. vm_compute. discriminate. Qed.
(** The reader number -1 means "none" to a multiplex: its connection outlives the input. *)
Theorem C41_minus_one_refuted : exists os s c, srun true 10 os newSinks = Some s /\ mfind 5 (scon s) = Some c /\ uses c (-1) /\ ~ exists_ (-1) s.
Proof.
  exists [OReader (-1) VH264; ORtp true [-1] 5 MpegTs; ODelReader (-1)]. eexists. eexists. split; [vm_compute; reflexivity|]. split; [vm_compute; reflexivity|].
  split; [left; reflexivity|]. intros (m & X). discriminate.
Qed.
Example C41_case : exists s, srun true 10 [OReader 1 VH264; OReader 2 AAAC; ORtsp true [1; 2] 10 StdRtp; ORtp true [1] 11 StdRtp; ORtp true [2] 12 StdRtp; ORtp true [1; 2] 11 MpegTs; ODelReader 1] newSinks = Some s /\
  mkeys (scon s) = [12] /\ srel s = [0; 1] /\ sleak s = [].
Proof. eexists. split; [vm_compute; reflexivity|]. repeat split. Qed.

Print Assumptions C41_bookkeeping_partial.
Print Assumptions C41_identifier_in_use.
Print Assumptions C41_add.
Print Assumptions C41_add_all_inputs_partial.
Print Assumptions C41_remove_input_partial.
Print Assumptions C41_remove_connection.
Print Assumptions C41_no_crash_partial.
Print Assumptions C41_unused_input_kept_refuted.
Print Assumptions C41_lost_objects.
Print Assumptions C41_add_input.
Print Assumptions C41_mpegts_accepted_partial.
