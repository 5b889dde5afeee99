(** C67: streams and their names. *)
From Coq Require Import String.
From Verif Require Import Base ZMap RtsModel RtsSpec RtsProofs.
Local Open Scope list_scope.
Local Open Scope Z_scope.

(** *** Every registered stream is found under its name. (Partial: if no request asks for a name in use.)
    Nothing else is found under any name, no two connections have one name, and no request uses a destroyed
    session. *)
Theorem C67_found_partial os : freshNames os -> exists s, run os newRts = Some s /\
  (forall n id, leadsTo n id s <-> exists rs, registered id n rs s) /\
  (forall n, unknown n s <-> forall id rs, ~ registered id n rs s) /\
  (forall n i j ri rj, registered i n ri s -> registered j n rj s -> i = j).
Proof.
  intros FR. destruct (fresh_good os FR) as (s & R & G). exists s. split; [exact R|]. split; [|split].
  - intros n id. split.
    + intros (c & F & L). destruct (g_tab _ G _ _ L) as (i & d & D1 & D2 & D3). assert (i = id) by exact (good_sess s i id d c G D1 F D2). subst i.
      rewrite F in D1. inversion D1; subst. exists (creads d). exists d. auto.
    + intros (rs & c & F & N & _). exists c. split; [exact F|]. subst n. destruct (g_con _ G _ _ F) as (x & _ & _ & _ & L). exact L.
  - intros n. split; [|exact (good_unused s n G)]. intros U id rs (c & F & N & _). destruct (g_con _ G _ _ F) as (x & _ & _ & _ & L). unfold unknown in U. congruence.
  - intros n i j ri rj (c & F1 & N1 & _) (d & F2 & N2 & _). apply (g_names _ G i j c d F1 F2). congruence.
Qed.
(** In any history, clients asking for the name of the connection just made get that connection. *)
Theorem C67_newest os s id n rs s' : run os newRts = Some s -> step (Add true id n rs) s = Done true s' -> leadsTo n id s' /\ registered id n rs s'.
Proof.
  intros _ H. cbn [step] in H. unfold addConnection in H. destruct rs as [|r0 rs0]; [discriminate|]. destruct (mmem id (rcon s)); [discriminate|].
  match type of H with done true match addSession ?o ?z with _ => _ end = _ => unfold addSession in H; destruct (use o z) as [x|] eqn:U; [|discriminate] end.
  unfold use in U. cbn [rses] in U. rewrite mfind_mset_eq in U. inversion U; subst x. cbn [sname rtab] in H.
  destruct (match lookup n (rtab s) with None => _ | Some _ => _ end) as [s1|]; [|discriminate]. cbn [done] in H. inversion H; subst. cbn.
  split; [exists (mkCon (rnext s) n (r0 :: rs0))|exists (mkCon (rnext s) n (r0 :: rs0))]; cbn; rewrite mfind_mset_eq; [rewrite String.eqb_refl|]; auto.
Qed.

(** *** A refused request changes no stream. (Partial: if its name is not in use.) *)
Theorem C67_refused_partial os s v id n rs s' : freshNames (os ++ [Add v id n rs]) -> run os newRts = Some s -> step (Add v id n rs) s = Done false s' ->
  rcon s' = rcon s /\ (forall m, lookup m (rtab s') = lookup m (rtab s)) /\ (forall i, clients i s' = clients i s).
Proof.
  intros FR R H. assert (G : good s).
  { destruct (good_run os [] newRts eq_refl good_new) as (s0 & R0 & G0); [|congruence].
    intros a v0 id0 n0 rs0 b s1 E R1. apply (FR a v0 id0 n0 rs0 (b ++ [Add v id n rs]) s1); [cbn in E; rewrite E, <- app_assoc; reflexivity|exact R1]. }
  assert (SF : stepFresh (Add v id n rs) s) by exact (FR os v id n rs [] s eq_refl R). cbn [step] in H.
  destruct rs as [|r0 rs0]; [inversion H; subst; auto|]. set (rs := r0 :: rs0) in *. destruct (mfind id (rcon s)) as [c|] eqn:F.
  { unfold addConnection, mmem, rs in H. rewrite F in H. inversion H; subst. auto. }
  assert (FR' : forall id' rs', ~ registered id' n rs' s) by (destruct SF as [X|[(n' & rs' & c & X & _)|X]]; [exact X|congruence|discriminate]).
  destruct v.
  - destruct (good_add_ok s id n rs G ltac:(discriminate) F FR') as (s2 & E & _). rewrite E in H. discriminate.
  - destruct (add_refused s id n rs G ltac:(discriminate) F) as (s2 & E & T & C & _ & _ & O & _). rewrite E in H. inversion H; subst s2.
    split; [exact C|]. rewrite T, (tabRemove_none n (rtab s) (good_unused s n G FR')). split; [reflexivity|]. intros i. unfold clients. rewrite C.
    destruct (mfind i (rcon s)) as [c|] eqn:Fi; [|reflexivity]. rewrite O; [reflexivity|]. destruct (g_con _ G _ _ Fi) as (x & X & _). apply (g_next _ G) in X. lia.
Qed.

(** *** Removing. (Partial: in histories as above.) A removed connection is gone and its name is free, the others
    stay; removing an input removes the connections that use it. *)
Theorem C67_removed_partial os s id n rs : freshNames os -> run os newRts = Some s -> registered id n rs s ->
  exists s', step (Remove id) s = Done true s' /\ unknown n s' /\
    (forall i m rs', registered i m rs' s' <-> registered i m rs' s /\ i <> id) /\ (forall m, m <> n -> lookup m (rtab s') = lookup m (rtab s)).
Proof.
  intros FR R (c & F & N & _). destruct (fresh_good os FR) as (s0 & R0 & G). rewrite R in R0. inversion R0; subst s0.
  destruct (good_remove s id c G F) as (s1 & D & G1 & (T & _)). cbn [step]. unfold removeConnection. rewrite F, deleteSession_con, D. cbn [done]. eexists. split; [reflexivity|].
  unfold unknown. cbn [rtab withCon]. rewrite T, lookup_remove, N, String.eqb_refl. split; [reflexivity|]. split.
  - intros i m rs'. unfold registered. cbn [rcon withCon]. rewrite mfind_mdel by apply G. destruct (Z.eqb_spec i id) as [-> | NE]; split.
    + intros (d & X & _). discriminate.
    + intros [_ X]. congruence.
    + intros X. split; [exact X|exact NE].
    + intros [X _]. exact X.
  - intros m NE. rewrite lookup_remove. destruct (String.eqb_spec m n); [congruence|reflexivity].
Qed.
Theorem C67_reader_removed_partial os s r : freshNames os -> run os newRts = Some s ->
  exists ok s', step (RemoveReader r) s = Done ok s' /\
    (forall i m rs, registered i m rs s' <-> registered i m rs s /\ ~ In r rs) /\
    (ok = true <-> exists i m rs, registered i m rs s /\ In r rs).
Proof.
  intros FR R. destruct (fresh_good os FR) as (s0 & R0 & G). rewrite R in R0. inversion R0; subst s0. cbn [step]. unfold removeByReader.
  destruct (stop_good r (rcon s) s G (keys_nodup _ _ None (g_sorted _ G))) as (s1 & H & G1 & R1).
  { intros id c I. exact (In_mfind _ None _ _ (g_sorted _ G) I). }
  rewrite H. eexists. eexists. split; [reflexivity|].
  set (ids := map fst (filter (fun ic => existsb (Z.eqb r) (creads (snd ic))) (rcon s))) in *.
  assert (K : forall i c, mfind i (rcon s) = Some c -> existsb (Z.eqb i) ids = existsb (Z.eqb r) (creads c)).
  { intros i c F. destruct (existsb (Z.eqb r) (creads c)) eqn:E.
    - apply existsb_in. unfold ids. apply in_map_iff. exists (i, c). split; [reflexivity|]. apply filter_In. split; [apply mfind_In; exact F|exact E].
    - destruct (existsb (Z.eqb i) ids) eqn:E2; [|reflexivity]. apply existsb_in in E2. unfold ids in E2. apply in_map_iff in E2. destruct E2 as ([j d] & EJ & I). cbn in EJ. subst j.
      apply filter_In in I. destruct I as [I E3]. apply (In_mfind _ None _ _ (g_sorted _ G)) in I. rewrite F in I. inversion I; subst. cbn in E3. congruence. }
  split.
  - intros i m rs. unfold registered. cbn [rcon withCon]. rewrite R1, mdel_all by apply G. split.
    + intros (c & F & N & RS). destruct (existsb (Z.eqb i) ids) eqn:E; [discriminate|]. rewrite (K i c F) in E. split; [exists c; auto|]. subst rs. intros I. apply existsb_in in I. congruence.
    + intros [(c & F & N & RS) NI]. exists c. rewrite (K i c F). destruct (existsb (Z.eqb r) (creads c)) eqn:E; [|auto]. exfalso. apply NI. subst rs. apply existsb_in, E.
  - split.
    + intros E. destruct ids as [|i ids'] eqn:EI; [discriminate|]. assert (I : In i ids) by (rewrite EI; left; reflexivity). unfold ids in I. apply in_map_iff in I. destruct I as ([j c] & _ & I).
      apply filter_In in I. destruct I as [I E2]. apply (In_mfind _ None _ _ (g_sorted _ G)) in I. exists j, (cname c), (creads c). split; [exists c; auto|apply existsb_in; exact E2].
    + intros (i & m & rs & (c & F & N & RS) & I). assert (E : existsb (Z.eqb i) ids = true) by (rewrite (K i c F); apply existsb_in; congruence). destruct ids; [discriminate|reflexivity].
Qed.
(** The state shows every connection with its name, under which it is found, and its readers. *)
Theorem C67_state_partial os s : freshNames os -> run os newRts = Some s ->
  exists l, getState s = Some l /\ (forall n u rs, In (n, u, rs) l <-> u = n /\ exists id, registered id n rs s) /\ List.length l = List.length (rcon s).
Proof.
  intros FR R. destruct (fresh_good os FR) as (s0 & R0 & G). rewrite R in R0. inversion R0; subst s0. rewrite (good_State s G). eexists. split; [reflexivity|]. split; [|apply map_length].
  intros n u rs. rewrite in_map_iff. split.
  - intros ([id c] & E & I). cbn in E. inversion E; subst. split; [reflexivity|]. exists id, c. split; [exact (In_mfind _ None _ _ (g_sorted _ G) I)|auto].
  - intros (-> & id & c & F & N & RS). exists (id, c). cbn. subst. split; [reflexivity|apply mfind_In; exact F].
Qed.

(** A client that asks for a name is let in if a connection has it, and is counted there and nowhere else. *)
Theorem C67_client_joins_partial os s n : freshNames os -> run os newRts = Some s ->
  exists ok s', step (Join n) s = Done ok s' /\ (ok = true <-> exists id rs, registered id n rs s) /\
    (forall i m rs, registered i m rs s' <-> registered i m rs s) /\
    (forall i m rs, registered i m rs s -> clients i s' = clients i s + (if String.eqb m n then 1 else 0)).
Proof.
  intros FR R. destruct (fresh_good os FR) as (s0 & R0 & G). rewrite R in R0. inversion R0; subst s0. clear R0.
  cbn [step]. destruct (lookup n (rtab s)) as [o|] eqn:L.
  - destruct (g_tab _ G _ _ L) as (id & c & F & O & N). subst o. destruct (good_use s id c G F) as (x & U & SN & M & P). rewrite U.
    eexists true, _. split; [reflexivity|]. split; [|split].
    + split; [|reflexivity]. intros _. exists id, (creads c), c. auto.
    + intros i m rs. reflexivity.
    + intros i m rs (d & Fd & Nd & _). unfold clients. cbn [setSes withSes rcon rses]. rewrite Fd. destruct (Z.eq_dec (csess d) (csess c)) as [E|E].
      * rewrite E, mfind_mset_eq. cbn [sclients]. assert (i = id) by exact (good_sess s i id d c G Fd F E). subst i. rewrite F in Fd. inversion Fd; subst d.
        replace (String.eqb m n) with true by (symmetry; apply String.eqb_eq; congruence). apply use_some in U. destruct U as [U _]. rewrite U. reflexivity.
      * rewrite mfind_mset_neq by congruence. replace (String.eqb m n) with false; [lia|]. symmetry. apply String.eqb_neq. intros X.
        destruct (g_con _ G _ _ Fd) as (y & _ & _ & _ & Ld). rewrite Nd, X in Ld. congruence.
  - eexists false, s. split; [reflexivity|]. split; [|split].
    + split; [discriminate|]. intros (id & rs & c & F & N & _). destruct (g_con _ G _ _ F) as (x & _ & _ & _ & L'). congruence.
    + intros; reflexivity.
    + intros i m rs (d & Fd & Nd & _). replace (String.eqb m n) with false; [lia|]. symmetry. apply String.eqb_neq. intros X.
      destruct (g_con _ G _ _ Fd) as (y & _ & _ & _ & Ld). congruence.
Qed.
Print Assumptions C67_client_joins_partial.

(** *** Names in use. *)
(** Refuted: that a request for a name in use leaves the stream alone. It is granted, the stream it had named is
    not found any more though it stays registered, and removing that stream uses a destroyed session; if it has no
    clients, so does asking for the state or removing any input; if it has, the new stream is not found any more
    once they have left. *)
Theorem C67_duplicate_refuted os s i1 n rs1 id rs : freshNames os -> run os newRts = Some s -> registered i1 n rs1 s ->
  (forall m rs', ~ registered id m rs' s) -> rs <> [] ->
  exists s', step (Add true id n rs) s = Done true s' /\ registered i1 n rs1 s' /\ leadsTo n id s' /\ ~ leadsTo n i1 s' /\
    step (Remove i1) s' = Crash /\
    (clients i1 s = 0 -> step State s' = Crash /\ forall r, step (RemoveReader r) s' = Crash) /\
    (clients i1 s <> 0 -> exists o s'', run (repeat (Leave o) (Z.to_nat (clients i1 s))) s' = Some s'' /\ registered id n rs s'' /\ unknown n s'').
Proof.
  intros FR R (c1 & F1 & N1 & RS1) NR NE. destruct (fresh_good os FR) as (s0 & R0 & G). rewrite R in R0. inversion R0; subst s0. clear R0.
  assert (F2 : mfind id (rcon s) = None) by (destruct (mfind id (rcon s)) as [c|] eqn:F; [exfalso; apply (NR (cname c) (creads c)); exists c; auto|reflexivity]).
  assert (ND : i1 <> id) by congruence. subst n.
  destruct (add_dup s i1 c1 id rs G F1 F2 NE) as (s' & x & H & X & C & L & D & X' & K). exists s'. split; [exact H|].
  assert (F1' : mfind i1 (rcon s') = Some c1) by (rewrite C, mfind_mset_neq by exact ND; exact F1).
  assert (F2' : mfind id (rcon s') = Some (mkCon (rnext s) (cname c1) rs)) by (rewrite C; apply mfind_mset_eq).
  assert (CL : clients i1 s = sclients x) by (unfold clients; rewrite F1, X; reflexivity). rewrite CL.
  split; [exists c1; auto|]. split; [exists (mkCon (rnext s) (cname c1) rs); auto|]. split; [intros (d & D1 & D2); rewrite F1' in D1; inversion D1; subst d; congruence|].
  split; [|split].
  - cbn [step]. unfold removeConnection. rewrite F1', deleteSession_con. rewrite (delete_replaced s' _ _ X'); [reflexivity|].
    destruct (Z.eqb_spec (sclients x) 0); cbn; [discriminate|]. intros _. split; [reflexivity|lia].
  - intros Z0. rewrite Z0 in X'. cbn in X'. assert (U : use (csess c1) s' = None) by (unfold use; rewrite X'; reflexivity). split.
    + cbn [step]. unfold getState. rewrite (stateOf_dead _ s' i1 c1 (mfind_In _ _ _ F1') U). reflexivity.
    + intros r. cbn [step]. unfold removeByReader. rewrite (stopReader_dead r _ s' i1 c1 (mfind_In _ _ _ F1') U). reflexivity.
  - intros NZ. destruct (Z.eqb_spec (sclients x) 0); [congruence|]. exists (csess c1).
    destruct (leave_marked s' (csess c1) (cname c1) (pred (Z.to_nat (sclients x)))) as (s'' & H1 & H2 & H3).
    { rewrite X'. f_equal. f_equal. lia. }
    exists s''. replace (S (pred (Z.to_nat (sclients x)))) with (Z.to_nat (sclients x)) in H1 by lia. split; [exact H1|]. split; [|exact H2].
    exists (mkCon (rnext s) (cname c1) rs). rewrite H3. auto.
Qed.
(** Refuted: that a refused request changes no stream. Refused for its readers, a request for a name in use makes the
    stream of that name unknown though it stays registered. *)
Theorem C67_refused_refuted os s i1 n rs1 id rs : freshNames os -> run os newRts = Some s -> registered i1 n rs1 s ->
  (forall m rs', ~ registered id m rs' s) -> rs <> [] ->
  exists s', step (Add false id n rs) s = Done false s' /\ registered i1 n rs1 s' /\ unknown n s'.
Proof.
  intros FR R (c1 & F1 & N1 & RS1) NR NE. destruct (fresh_good os FR) as (s0 & R0 & G). rewrite R in R0. inversion R0; subst s0. clear R0.
  assert (F2 : mfind id (rcon s) = None) by (destruct (mfind id (rcon s)) as [c|] eqn:F; [exfalso; apply (NR (cname c) (creads c)); exists c; auto|reflexivity]).
  destruct (add_refused s id n rs G NE F2) as (s' & H & T & C & _). exists s'. split; [exact H|]. split; [exists c1; rewrite C; auto|].
  unfold unknown. rewrite T, lookup_remove, String.eqb_refl. reflexivity.
Qed.

(** *** Cases. *)
Local Open Scope string_scope.
Local Open Scope list_scope.
Definition day : list op :=
  [Add true 1 "live" [10]; Join "live"; Add true 2 "sport" [10; 11]; Add false 3 "news" [77]; Add true 1 "other" [11]; Join "sport"; Leave 1; State;
   Remove 1; Add true 4 "live" [12]; RemoveReader 10].
Fixpoint freshb (os : list op) (s : rts) : bool :=
  match os with
  | [] => true
  | o :: os =>
      match o with
      | Add _ id n rs => negb (existsb (fun ic => String.eqb (cname (snd ic)) n) (rcon s)) || mmem id (rcon s) || match rs with [] => true | _ => false end
      | _ => true
      end && match step o s with Done _ s => freshb os s | Crash => true end
  end.
Lemma freshb_sound os : forall s0, freshb os s0 = true -> forall a v id n rs b s, os = a ++ Add v id n rs :: b -> run a s0 = Some s ->
  (forall id' rs', ~ registered id' n rs' s) \/ (exists n' rs', registered id n' rs' s) \/ rs = [].
Proof.
  induction os as [|o os IH]; intros s0 H a v id n rs b s E R; [destruct a; discriminate|]. cbn [freshb] in H. apply andb_prop in H. destruct H as [H1 H2].
  destruct a as [|o' a]; inversion E; subst; clear E.
  - cbn in R. inversion R; subst. apply orb_prop in H1. destruct H1 as [H1|H1]; [|right; right; destruct rs; [reflexivity|discriminate]].
    apply orb_prop in H1. destruct H1 as [H1|H1].
    + left. intros id' rs' (c & F & N & _). apply negb_true_iff in H1. assert (X : existsb (fun ic : Z * rconn => String.eqb (cname (snd ic)) n) (rcon s) = true); [|congruence].
      apply existsb_exists. exists (id', c). split; [apply mfind_In; exact F|]. cbn. rewrite N. apply String.eqb_refl.
    + right. left. unfold mmem in H1. destruct (mfind id (rcon s)) as [c|] eqn:F; [|discriminate]. exists (cname c), (creads c), c. auto.
  - cbn [run] in R. destruct (step o' s0) as [ok s1|]; [|discriminate]. exact (IH s1 H2 a v id n rs b s eq_refl R).
Qed.
Example C67_day_fresh : freshNames day.
Proof. intros a v id n rs b s. exact (freshb_sound day newRts ltac:(vm_compute; reflexivity) a v id n rs b s). Qed.
Example C67_day : match run day newRts with Some s => map (fun ic => (fst ic, cname (snd ic))) (rcon s) = [(4, "live")] /\ rtab s = [("live", 4)] | None => False end.
Proof. vm_compute. split; reflexivity. Qed.
Example C67_taken : match run [Add true 1 "live" [10]; Join "live"; Add true 2 "live" [11]] newRts with Some s => rtab s = [("live", 2)] /\ clients 1 s = 1 | None => False end.
Proof. vm_compute. split; reflexivity. Qed.

Print Assumptions C67_found_partial.
Print Assumptions C67_newest.
Print Assumptions C67_refused_partial.
Print Assumptions C67_removed_partial.
Print Assumptions C67_reader_removed_partial.
Print Assumptions C67_state_partial.
Print Assumptions C67_duplicate_refuted.
Print Assumptions C67_refused_refuted.
