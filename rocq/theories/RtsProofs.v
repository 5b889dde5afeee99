(** Proofs for C67. *)
From Coq Require Import String.
From Verif Require Import Base ZMap RtsModel RtsSpec.
Local Open Scope list_scope.
Local Open Scope Z_scope.

Lemma lookup_remove n m t : lookup n (tabRemove m t) = if String.eqb n m then None else lookup n t.
Proof.
  induction t as [|[k o] t IH]; cbn [tabRemove lookup]; [destruct (String.eqb n m); reflexivity|].
  destruct (String.eqb_spec m k) as [-> | N].
  - rewrite IH. destruct (String.eqb n k) eqn:E; reflexivity.
  - cbn [lookup]. rewrite IH. destruct (String.eqb_spec n k) as [-> | N2]; [|reflexivity].
    destruct (String.eqb_spec k m); [congruence|reflexivity].
Qed.
Lemma existsb_in r l : existsb (Z.eqb r) l = true <-> In r l.
Proof. rewrite existsb_exists. split; [intros (x & H & E); apply Z.eqb_eq in E; congruence|intros H; exists r; split; [exact H|apply Z.eqb_refl]]. Qed.

Lemma use_some o s x : use o s = Some x <-> mfind o (rses s) = Some x /\ salive x = true.
Proof.
  unfold use. destruct (mfind o (rses s)) as [y|]; [|split; [discriminate|intros [H _]; discriminate]].
  destruct (salive y) eqn:E; split; intros H.
  - inversion H; subst. auto.
  - destruct H as [H _]. exact H.
  - discriminate.
  - destruct H as [H A]. inversion H; subst. congruence.
Qed.

(** What deleting an unmarked session does. *)
Definition deleted (o : Z) (n : string) (s s' : rts) : Prop :=
  rtab s' = tabRemove n (rtab s) /\ rcon s' = rcon s /\ rnext s' = rnext s /\
  (forall o', o' <> o -> mfind o' (rses s') = mfind o' (rses s)) /\
  exists y, mfind o (rses s') = Some y /\ salive y = false.
Lemma deleteSession_ok o s x : use o s = Some x -> smarked x = false -> 0 <= sclients x ->
  exists s', deleteSession o s = Some s' /\ deleted o (sname x) s s'.
Proof.
  intros U M C. unfold deleteSession, leaveAll. rewrite U, M. destruct (Z.leb_spec (sclients x) 0) as [L|L].
  - unfold removeSession. rewrite U. destruct (Z.eqb_spec (sclients x) 0); [|lia]. eexists. split; [reflexivity|].
    unfold deleted. cbn. repeat split; [intros o' N; apply mfind_mset_neq; exact N|].
    rewrite mfind_mset_eq. eexists. split; reflexivity.
  - unfold removeSession, use, setSes. cbn [rses withSes rtab]. rewrite mfind_mset_eq. cbn [salive sclients sname smarked]. eexists. split; [reflexivity|].
    unfold deleted. cbn. repeat split; [intros o' N; rewrite !mfind_mset_neq by exact N; reflexivity|].
    rewrite mfind_mset_eq. eexists. split; reflexivity.
Qed.
Lemma deleteSession_con o s m : deleteSession o (withCon s m) = match deleteSession o s with Some s' => Some (withCon s' m) | None => None end.
Proof.
  unfold deleteSession, leaveAll, removeSession, use. cbn [rses withCon].
  destruct (mfind o (rses s)) as [x|] eqn:F; [|reflexivity]. destruct (salive x) eqn:A; [|reflexivity].
  destruct (sclients x <=? 0); cbn [rses withCon].
  - rewrite F, A. reflexivity.
  - destruct (smarked x); cbn -[mfind mset]; rewrite !mfind_mset_eq; cbn -[mfind mset]; [rewrite !mfind_mset_eq|]; reflexivity.
Qed.

(** *** The invariant *)
Record good (s : rts) : Prop := {
  g_sorted : msorted (rcon s);
  g_ses : msorted (rses s);
  g_next : forall o x, mfind o (rses s) = Some x -> o < rnext s;
  g_con : forall id c, mfind id (rcon s) = Some c -> exists x, mfind (csess c) (rses s) = Some x /\ salive x = true /\ sname x = cname c /\ lookup (cname c) (rtab s) = Some (csess c);
  g_tab : forall n o, lookup n (rtab s) = Some o -> exists id c, mfind id (rcon s) = Some c /\ csess c = o /\ cname c = n;
  g_plain : forall o x, mfind o (rses s) = Some x -> salive x = true -> smarked x = false /\ 0 <= sclients x;
  g_names : forall i j c d, mfind i (rcon s) = Some c -> mfind j (rcon s) = Some d -> cname c = cname d -> i = j;
}.
Lemma good_new : good newRts.
Proof. constructor; cbn; try exact I; intros; discriminate. Qed.
Lemma good_sess s i j c d : good s -> mfind i (rcon s) = Some c -> mfind j (rcon s) = Some d -> csess c = csess d -> i = j.
Proof.
  intros G F1 F2 E. destruct (g_con _ G _ _ F1) as (x & X & _ & N1 & _). destruct (g_con _ G _ _ F2) as (y & Y & _ & N2 & _).
  rewrite E in X. rewrite X in Y. inversion Y; subst. apply (g_names _ G i j c d); congruence.
Qed.
Lemma good_use s id c : good s -> mfind id (rcon s) = Some c -> exists x, use (csess c) s = Some x /\ sname x = cname c /\ smarked x = false /\ 0 <= sclients x.
Proof.
  intros G F. destruct (g_con _ G _ _ F) as (x & X & A & N & _). exists x. destruct (g_plain _ G _ _ X A). split; [apply use_some; auto|auto].
Qed.

(** Removing a connection. *)
Lemma msorted_of_deleted o n s s' : deleted o n s s' -> deleteSession o s = Some s' -> msorted (rses s) -> msorted (rses s').
Proof.
  intros _ H S. unfold deleteSession, leaveAll, removeSession in H.
  destruct (use o s) as [x|] eqn:U; [|discriminate]. destruct (sclients x <=? 0).
  - rewrite U in H. inversion H; subst. cbn. apply msorted_mset, S.
  - destruct (smarked x).
    + destruct (use o (setSes o _ s)) as [y|]; [|discriminate]. cbn [sname] in H.
      match type of H with match use o ?z with _ => _ end = _ => destruct (use o z); [|discriminate] end. inversion H; subst. cbn. repeat apply msorted_mset. exact S.
    + match type of H with match use o ?z with _ => _ end = _ => destruct (use o z); [|discriminate] end. inversion H; subst. cbn. repeat apply msorted_mset. exact S.
Qed.
Lemma good_remove s id c : good s -> mfind id (rcon s) = Some c ->
  exists s', deleteSession (csess c) s = Some s' /\ good (withCon s' (mdel id (rcon s))) /\ deleted (csess c) (cname c) s s'.
Proof.
  intros G F. destruct (good_use s id c G F) as (x & U & N & M & C). destruct (deleteSession_ok _ _ _ U M C) as (s' & H & D). rewrite N in D.
  exists s'. split; [exact H|]. split; [|exact D]. pose proof (msorted_of_deleted _ _ _ _ D H (g_ses _ G)) as SS. destruct D as (T & R & X & O & (y & Y & YA)).
  assert (K : forall i d, mfind i (mdel id (rcon s)) = Some d -> i <> id /\ mfind i (rcon s) = Some d /\ csess d <> csess c /\ cname d <> cname c).
  { intros i d F'. rewrite mfind_mdel in F' by apply G. destruct (Z.eqb_spec i id); [discriminate|]. split; [assumption|]. split; [assumption|].
    split; intros E; [apply n; exact (good_sess s i id d c G F' F E)|apply n; exact (g_names _ G i id d c F' F E)]. }
  constructor; cbn [rcon withCon rses rtab rnext].
  - apply msorted_mdel, G.
  - exact SS.
  - intros o z F'. rewrite X. destruct (Z.eq_dec o (csess c)) as [-> | E].
    + apply use_some in U. exact (g_next _ G _ _ (proj1 U)).
    + rewrite O in F' by exact E. exact (g_next _ G _ _ F').
  - intros i d F'. destruct (K i d F') as (K1 & K2 & K3 & K4). destruct (g_con _ G _ _ K2) as (z & Z1 & Z2 & Z3 & Z4). exists z.
    rewrite O by exact K3. do 3 (split; [assumption|]). rewrite T, lookup_remove. destruct (String.eqb_spec (cname d) (cname c)); [congruence|exact Z4].
  - intros n o L. rewrite T, lookup_remove in L. destruct (String.eqb_spec n (cname c)); [discriminate|].
    destruct (g_tab _ G _ _ L) as (i & d & D1 & D2 & D3). exists i, d. split; [|auto]. rewrite mfind_mdel by apply G.
    destruct (Z.eqb_spec i id) as [-> | _]; [|exact D1]. rewrite F in D1. inversion D1; subst. congruence.
  - intros o z F' A. destruct (Z.eq_dec o (csess c)) as [-> | E]; [rewrite Y in F'; inversion F'; subst; congruence|].
    rewrite O in F' by exact E. exact (g_plain _ G _ _ F' A).
  - intros i j d e F1 F2. destruct (K i d F1) as (_ & K1 & _). destruct (K j e F2) as (_ & K2 & _). exact (g_names _ G i j d e K1 K2).
Qed.

Lemma use_con o s m : use o (withCon s m) = use o s.
Proof. reflexivity. Qed.
Lemma stopReader_con r cs : forall s m, stopReader r cs (withCon s m) = match stopReader r cs s with Some (ids, s') => Some (ids, withCon s' m) | None => None end.
Proof.
  induction cs as [|[id c] cs IH]; intros s m; cbn [stopReader]; [reflexivity|]. rewrite use_con. destruct (use (csess c) s); [|reflexivity].
  destruct (existsb (Z.eqb r) (creads c)); [|apply IH]. rewrite deleteSession_con. destruct (deleteSession (csess c) s) as [s1|]; [|reflexivity].
  rewrite IH. destruct (stopReader r cs s1) as [[ids s2]|]; reflexivity.
Qed.
Lemma withCon_twice s a b : withCon (withCon s a) b = withCon s b.
Proof. reflexivity. Qed.
Lemma stop_good r cs : forall s, good s -> NoDup (map fst cs) -> (forall id c, In (id, c) cs -> mfind id (rcon s) = Some c) ->
  exists s1, stopReader r cs s = Some (map fst (filter (fun ic => existsb (Z.eqb r) (creads (snd ic))) cs), s1) /\
    good (withCon s1 (fold_left (fun m id => mdel id m) (map fst (filter (fun ic => existsb (Z.eqb r) (creads (snd ic))) cs)) (rcon s))) /\ rcon s1 = rcon s.
Proof.
  induction cs as [|[id c] cs IH]; intros s G N C; cbn [stopReader filter map].
  - exists s. split; [reflexivity|]. split; [|reflexivity]. cbn. destruct s; exact G.
  - inversion N; subst. pose proof (C id c (or_introl eq_refl)) as F. destruct (good_use s id c G F) as (x & U & _). rewrite U.
    cbn [snd]. destruct (existsb (Z.eqb r) (creads c)) eqn:E.
    + destruct (good_remove s id c G F) as (s2 & D & G2 & DD). rewrite D.
      destruct (IH _ G2 H2) as (s3 & S3 & G3 & R3).
      { intros i d I. cbn [rcon withCon]. rewrite mfind_mdel by apply G. destruct (Z.eqb_spec i id) as [-> | NE]; [|apply C; right; exact I].
        exfalso. apply H1. apply in_map_iff. exists (id, d). auto. }
      rewrite stopReader_con in S3. destruct (stopReader r cs s2) as [[ids s4]|] eqn:S4; [|discriminate]. inversion S3; subst ids s3. clear S3.
      assert (R4 : rcon s4 = rcon s2).
      { clear -S4. revert s2 s4 S4. generalize (map fst (filter (fun ic : Z * rconn => existsb (Z.eqb r) (creads (snd ic))) cs)).
        induction cs as [|[i d] cs IH]; intros ids s2 s4 S4; cbn [stopReader] in S4; [inversion S4; reflexivity|].
        destruct (use (csess d) s2); [|discriminate]. destruct (existsb (Z.eqb r) (creads d)); [|exact (IH _ _ _ S4)].
        destruct (deleteSession (csess d) s2) as [s5|] eqn:D; [|discriminate]. destruct (stopReader r cs s5) as [[l s6]|] eqn:S5; [|discriminate]. inversion S4; subst.
        rewrite (IH _ _ _ S5). pose proof (deleteSession_con (csess d) s2 (rcon s2)) as X. rewrite D in X.
        assert (Y : withCon s2 (rcon s2) = s2) by (destruct s2; reflexivity). rewrite Y, D in X. inversion X as [Z0]. rewrite Z0. reflexivity. }
      exists s4. cbn [map fst fold_left]. split; [reflexivity|]. split; [exact G3|]. rewrite R4. apply DD.
    + apply IH; [exact G|assumption|intros i d I; apply C; right; exact I].
Qed.
Lemma keys_nodup (A : Type) (m : zmap A) : forall lo, sorted_from lo m -> NoDup (map fst m).
Proof.
  induction m as [|[k x] m IH]; intros lo S; cbn; [constructor|]. destruct S as [S1 S2]. constructor; [|exact (IH _ S2)].
  intros I. apply in_map_iff in I. destruct I as ([k' y] & E & I). cbn in E. subst. pose proof (sorted_lower m k k y S2 I). lia.
Qed.
Lemma mdel_all (A : Type) ids : forall (m : zmap A) i, msorted m -> mfind i (fold_left (fun m id => mdel id m) ids m) = if existsb (Z.eqb i) ids then None else mfind i m.
Proof.
  induction ids as [|id ids IH]; intros m i S; cbn [fold_left existsb]; [reflexivity|]. rewrite IH by (apply msorted_mdel, S). rewrite mfind_mdel by exact S.
  destruct (i =? id); cbn; [destruct (existsb (Z.eqb i) ids); reflexivity|reflexivity].
Qed.

(** *** Steps *)
Lemma good_client s o x k : good s -> mfind o (rses s) = Some x -> salive x = true -> 0 <= k -> good (setSes o (mkSes (sname x) k (smarked x) true) s).
Proof.
  intros G F A K. destruct (g_plain _ G _ _ F A) as [M _]. unfold setSes. constructor; cbn [rcon withSes rses rtab rnext].
  - apply G.
  - apply msorted_mset, G.
  - intros o' y F'. destruct (Z.eq_dec o' o) as [-> | N]; [exact (g_next _ G _ _ F)|]. rewrite mfind_mset_neq in F' by exact N. exact (g_next _ G _ _ F').
  - intros id c F'. destruct (g_con _ G _ _ F') as (y & Y1 & Y2 & Y3 & Y4). destruct (Z.eq_dec (csess c) o) as [E|N].
    + rewrite E in *. rewrite mfind_mset_eq. rewrite F in Y1. inversion Y1; subst y. eexists. split; [reflexivity|]. cbn. auto.
    + rewrite mfind_mset_neq by exact N. exists y. auto.
  - apply G.
  - intros o' y F' A'. destruct (Z.eq_dec o' o) as [-> | N]; [rewrite mfind_mset_eq in F'; inversion F'; subst; cbn; auto|].
    rewrite mfind_mset_neq in F' by exact N. exact (g_plain _ G _ _ F' A').
  - apply G.
Qed.
Lemma good_State s : good s -> getState s = Some (map (fun ic => (cname (snd ic), cname (snd ic), creads (snd ic))) (rcon s)).
Proof.
  intros G. unfold getState. assert (H : forall id c, In (id, c) (rcon s) -> mfind id (rcon s) = Some c) by (intros id c I; exact (In_mfind _ None _ _ (g_sorted _ G) I)).
  revert H. generalize (rcon s) at 1 3 4. induction z as [|[id c] z IH]; intros H; cbn [stateOf map]; [reflexivity|].
  destruct (good_use s id c G (H id c (or_introl eq_refl))) as (x & U & N & _). rewrite U, IH by (intros i d I; apply H; right; exact I). cbn. rewrite N. reflexivity.
Qed.
Definition stepFresh (o : op) (s : rts) : Prop :=
  match o with Add v id n rs => (forall id' rs', ~ registered id' n rs' s) \/ (exists n' rs', registered id n' rs' s) \/ rs = [] | _ => True end.

Lemma good_add_ok s id n rs : good s -> rs <> [] -> mfind id (rcon s) = None -> (forall id' rs', ~ registered id' n rs' s) ->
  exists s', addConnection true id n rs s = Done true s' /\ good s' /\ rcon s' = mset id (mkCon (rnext s) n rs) (rcon s) /\ rtab s' = (n, rnext s) :: tabRemove n (rtab s).
Proof.
  intros G NE F FR. unfold addConnection. destruct rs as [|r0 rs0]; [congruence|]. set (rs := r0 :: rs0) in *. unfold mmem. rewrite F.
  assert (L : lookup n (rtab s) = None).
  { destruct (lookup n (rtab s)) as [o|] eqn:E; [|reflexivity]. destruct (g_tab _ G _ _ E) as (i & c & F1 & _ & N1). exfalso. apply (FR i (creads c)). exists c. auto. }
  unfold addSession, use. cbn [rses rtab]. rewrite mfind_mset_eq. cbn [salive sname]. rewrite L. cbn [done]. eexists. split; [reflexivity|]. cbn. split; [|split; reflexivity].
  assert (NS : forall i c, mfind i (rcon s) = Some c -> csess c <> rnext s /\ cname c <> n).
  { intros i c F1. split; [destruct (g_con _ G _ _ F1) as (x & X & _); apply (g_next _ G) in X; lia|]. intros E. apply (FR i (creads c)). exists c. auto. }
  constructor; cbn.
  - apply msorted_mset, G.
  - apply msorted_mset, G.
  - intros o x H. destruct (Z.eq_dec o (rnext s)) as [-> | N]; [lia|]. rewrite mfind_mset_neq in H by exact N. apply (g_next _ G) in H. lia.
  - intros i c H. destruct (Z.eq_dec i id) as [-> | N].
    + rewrite mfind_mset_eq in H. inversion H; subst c. cbn. rewrite mfind_mset_eq. eexists. split; [reflexivity|]. cbn. rewrite String.eqb_refl. auto.
    + rewrite mfind_mset_neq in H by exact N. destruct (NS i c H) as [N1 N2]. destruct (g_con _ G _ _ H) as (x & X1 & X2 & X3 & X4). exists x. rewrite mfind_mset_neq by exact N1.
      do 3 (split; [assumption|]). rewrite lookup_remove. destruct (String.eqb_spec (cname c) n); [congruence|exact X4].
  - intros m o H. destruct (String.eqb_spec m n) as [-> | N].
    + inversion H; subst. exists id, (mkCon (rnext s) n rs). rewrite mfind_mset_eq. auto.
    + rewrite lookup_remove in H. destruct (String.eqb_spec m n); [congruence|]. destruct (g_tab _ G _ _ H) as (i & c & F1 & S1 & N1). exists i, c.
      rewrite mfind_mset_neq; [auto|]. intros ->. congruence.
  - intros o x H A. destruct (Z.eq_dec o (rnext s)) as [-> | N]; [rewrite mfind_mset_eq in H; inversion H; subst; cbn; split; [reflexivity|lia]|].
    rewrite mfind_mset_neq in H by exact N. exact (g_plain _ G _ _ H A).
  - intros i j c d F1 F2 E. destruct (Z.eq_dec i id) as [-> | N1]; destruct (Z.eq_dec j id) as [-> | N2]; [reflexivity| | |].
    + rewrite mfind_mset_eq in F1. inversion F1; subst c. rewrite mfind_mset_neq in F2 by exact N2. cbn in E. destruct (NS j d F2). congruence.
    + rewrite mfind_mset_eq in F2. inversion F2; subst d. rewrite mfind_mset_neq in F1 by exact N1. cbn in E. destruct (NS i c F1). congruence.
    + rewrite mfind_mset_neq in F1 by exact N1. rewrite mfind_mset_neq in F2 by exact N2. exact (g_names _ G i j c d F1 F2 E).
Qed.
(** A request refused after its session was made. *)
Lemma add_refused s id n rs : good s -> rs <> [] -> mfind id (rcon s) = None ->
  exists s', addConnection false id n rs s = Done false s' /\ rtab s' = tabRemove n (rtab s) /\ rcon s' = rcon s /\ rnext s' = rnext s + 1 /\ msorted (rses s') /\
    (forall o, o <> rnext s -> mfind o (rses s') = mfind o (rses s)) /\ exists y, mfind (rnext s) (rses s') = Some y /\ salive y = false.
Proof.
  intros G NE F. unfold addConnection. destruct rs as [|r0 rs0]; [congruence|]. set (rs := r0 :: rs0) in *. unfold mmem. rewrite F.
  set (s0 := mkR (rtab s) (mset (rnext s) (mkSes n 0 false true) (rses s)) (rcon s) (rnext s + 1)).
  assert (U : use (rnext s) s0 = Some (mkSes n 0 false true)) by (apply use_some; split; [apply mfind_mset_eq|reflexivity]).
  destruct (deleteSession_ok _ _ _ U eq_refl ltac:(cbn; lia)) as (s' & H & D). rewrite H. exists s'. cbn [done]. split; [reflexivity|].
  pose proof (msorted_of_deleted _ _ _ _ D H (msorted_mset _ _ _ (g_ses _ G))) as MS. destruct D as (D1 & D2 & D3 & D4 & D5). cbn in D1, D2, D3.
  do 4 (split; [assumption|]). split; [|exact D5]. intros o N. rewrite D4 by exact N. unfold s0. cbn. apply mfind_mset_neq. exact N.
Qed.
Lemma tabRemove_none n t : lookup n t = None -> tabRemove n t = t.
Proof.
  induction t as [|[m o] t IH]; cbn; [reflexivity|]. destruct (String.eqb n m); [discriminate|]. intros H. rewrite IH by exact H. reflexivity.
Qed.
Lemma good_unused s n : good s -> (forall id' rs', ~ registered id' n rs' s) -> lookup n (rtab s) = None.
Proof.
  intros G FR. destruct (lookup n (rtab s)) as [o|] eqn:E; [|reflexivity]. destruct (g_tab _ G _ _ E) as (i & c & F1 & _ & N1). exfalso. apply (FR i (creads c)). exists c. auto.
Qed.
Lemma good_step o s : good s -> stepFresh o s -> exists ok s', step o s = Done ok s' /\ good s'.
Proof.
  intros G FR. destruct o as [v id n rs|id|r| |n|o]; cbn [step stepFresh] in *.
  - destruct rs as [|r0 rs0]; [exists false, s; split; [reflexivity|exact G]|]. set (rs := r0 :: rs0) in *. assert (NE : rs <> []) by discriminate.
    destruct (mfind id (rcon s)) as [c|] eqn:F.
    { exists false, s. split; [|exact G]. unfold addConnection, mmem, rs. rewrite F. reflexivity. }
    assert (FR' : forall id' rs', ~ registered id' n rs' s).
    { destruct FR as [X|[(n' & rs' & c & X & _)|X]]; [exact X|congruence|congruence]. }
    destruct v.
    + destruct (good_add_ok s id n rs G NE F FR') as (s' & H & G' & _). exists true, s'. auto.
    + destruct (add_refused s id n rs G NE F) as (s' & H & T & R & X & MS & O & (y & Y & YA)). exists false, s'. split; [exact H|].
      rewrite (tabRemove_none n (rtab s) (good_unused s n G FR')) in T.
      constructor; rewrite ?R, ?T, ?X.
      * apply G.
      * exact MS.
      * intros o z F1. destruct (Z.eq_dec o (rnext s)) as [-> | N]; [lia|]. rewrite O in F1 by exact N. apply (g_next _ G) in F1. lia.
      * intros i c F1. destruct (g_con _ G _ _ F1) as (x & X1 & X2). exists x. rewrite O; [auto|]. apply (g_next _ G) in X1. lia.
      * apply G.
      * intros o z F1 A. destruct (Z.eq_dec o (rnext s)) as [-> | N]; [rewrite Y in F1; inversion F1; subst; congruence|]. rewrite O in F1 by exact N. exact (g_plain _ G _ _ F1 A).
      * apply G.
  - unfold removeConnection. destruct (mfind id (rcon s)) as [c|] eqn:F; [|exists false, s; auto]. rewrite deleteSession_con.
    destruct (good_remove s id c G F) as (s' & H & G' & _). rewrite H. exists true. eexists. split; [reflexivity|exact G'].
  - unfold removeByReader. destruct (stop_good r (rcon s) s G (keys_nodup _ _ None (g_sorted _ G))) as (s1 & H & G1 & R1).
    { intros id c I. exact (In_mfind _ None _ _ (g_sorted _ G) I). }
    rewrite H. eexists. eexists. split; [reflexivity|]. rewrite R1. exact G1.
  - rewrite (good_State s G). exists true, s. auto.
  - destruct (lookup n (rtab s)) as [o|] eqn:L; [|exists false, s; auto]. destruct (g_tab _ G _ _ L) as (i & c & F & S & _). subst o.
    destruct (good_use s i c G F) as (x & U & _ & M & C). rewrite U. eexists. eexists. split; [reflexivity|]. apply use_some in U. destruct U. apply good_client; auto. lia.
  - destruct (use o s) as [x|] eqn:U; [|exists false, s; auto]. unfold leave. rewrite U. apply use_some in U as U'. destruct U' as [F A]. destruct (g_plain _ G _ _ F A) as [M C].
    destruct (Z.leb_spec (sclients x) 0); [exists true, s; auto|]. rewrite M, andb_false_r. cbn [done]. eexists. eexists. split; [reflexivity|]. rewrite <- M. apply good_client; auto. lia.
Qed.
Lemma run_app a : forall b s, run (a ++ b) s = match run a s with Some s' => run b s' | None => None end.
Proof. induction a as [|o a IH]; intros b s; cbn; [reflexivity|]. destruct (step o s); [apply IH|reflexivity]. Qed.
Lemma good_run os : forall a s, run a newRts = Some s -> good s -> freshNames (a ++ os) -> exists s', run os s = Some s' /\ good s'.
Proof.
  induction os as [|o os IH]; intros a s R G FR; [exists s; auto|]. cbn [run].
  assert (SF : stepFresh o s).
  { destruct o as [v id n rs| | | | |]; cbn [stepFresh]; auto. exact (FR a v id n rs os s eq_refl R). }
  destruct (good_step o s G SF) as (ok & s1 & H & G1). rewrite H. apply (IH (a ++ [o]) s1); [|exact G1|rewrite <- app_assoc; exact FR].
  rewrite run_app, R. cbn. rewrite H. reflexivity.
Qed.
Lemma fresh_good os : freshNames os -> exists s, run os newRts = Some s /\ good s.
Proof. exact (good_run os [] newRts eq_refl good_new). Qed.

(** *** Destroyed sessions stay destroyed *)
Lemma use_setSes o x s o' : use o' s = None -> o' <> o -> use o' (setSes o x s) = None.
Proof. intros U N. unfold use, setSes in *. cbn [rses withSes]. rewrite mfind_mset_neq by exact N. exact U. Qed.
Lemma removeSession_dead o s s' o' : removeSession o s = Some s' -> use o' s = None -> use o' s' = None.
Proof.
  unfold removeSession. destruct (use o s) as [x|] eqn:U; [|discriminate]. intros H D. inversion H; subst. apply use_setSes; [exact D|]. intros ->. congruence.
Qed.
Lemma leaveAll_dead o s s' o' : leaveAll o s = Some s' -> use o' s = None -> use o' s' = None.
Proof.
  unfold leaveAll. destruct (use o s) as [x|] eqn:U; [|discriminate]. destruct (sclients x <=? 0); [intros H; inversion H; subst; auto|].
  intros H D. assert (N : o' <> o) by (intros ->; congruence). destruct (smarked x).
  - eapply removeSession_dead; [exact H|]. apply use_setSes; assumption.
  - inversion H; subst. apply use_setSes; assumption.
Qed.
Lemma deleteSession_dead o s s' o' : deleteSession o s = Some s' -> use o' s = None -> use o' s' = None.
Proof.
  unfold deleteSession. destruct (leaveAll o s) as [s1|] eqn:L; [|discriminate]. intros H D. eapply removeSession_dead; [exact H|]. eapply leaveAll_dead; eauto.
Qed.
Lemma stopReader_dead r cs : forall s id c, In (id, c) cs -> use (csess c) s = None -> stopReader r cs s = None.
Proof.
  induction cs as [|[i d] cs IH]; intros s id c I U; [destruct I|]. cbn [stopReader]. destruct (use (csess d) s) as [x|] eqn:X; [|reflexivity].
  destruct I as [I|I]; [inversion I; subst; congruence|]. destruct (existsb (Z.eqb r) (creads d)).
  - destruct (deleteSession (csess d) s) as [s1|] eqn:D; [|reflexivity]. rewrite (IH s1 id c I); [reflexivity|]. eapply deleteSession_dead; eauto.
  - exact (IH s id c I U).
Qed.
Lemma stateOf_dead cs : forall s id c, In (id, c) cs -> use (csess c) s = None -> stateOf cs s = None.
Proof.
  induction cs as [|[i d] cs IH]; intros s id c I U; [destruct I|]. cbn [stateOf]. destruct (use (csess d) s) as [x|] eqn:X; [|reflexivity].
  destruct I as [I|I]; [inversion I; subst; congruence|]. rewrite (IH s id c I U). reflexivity.
Qed.

(** *** A second connection of the same name *)
Lemma add_dup s i1 c1 id rs : good s -> mfind i1 (rcon s) = Some c1 -> mfind id (rcon s) = None -> rs <> [] ->
  exists s' x, addConnection true id (cname c1) rs s = Done true s' /\ mfind (csess c1) (rses s) = Some x /\
    rcon s' = mset id (mkCon (rnext s) (cname c1) rs) (rcon s) /\ lookup (cname c1) (rtab s') = Some (rnext s) /\ csess c1 <> rnext s /\
    mfind (csess c1) (rses s') = Some (if sclients x =? 0 then mkSes (cname c1) 0 (smarked x) false else mkSes (cname c1) (sclients x) true true) /\ 0 <= sclients x.
Proof.
  intros G F F2 NE. destruct (g_con _ G _ _ F) as (x & X & A & N & L). destruct (g_plain _ G _ _ X A) as [M C].
  pose proof (g_next _ G _ _ X) as NX. assert (ND : csess c1 <> rnext s) by lia.
  unfold addConnection. destruct rs as [|r0 rs0]; [congruence|]. set (rs := r0 :: rs0) in *. unfold mmem. rewrite F2.
  unfold addSession, use. cbn [rses rtab]. rewrite mfind_mset_eq. cbn [salive sname]. rewrite L. unfold removeSession, use. cbn [rses].
  rewrite mfind_mset_neq by exact ND. rewrite X, A. cbn [done]. eexists. exists x. split; [reflexivity|]. split; [reflexivity|].
  cbn [rcon withCon withTab withSes setSes rtab rses]. split; [reflexivity|]. split; [cbn [lookup]; rewrite String.eqb_refl; reflexivity|]. split; [exact ND|].
  rewrite mfind_mset_eq, N. auto.
Qed.
Lemma leave_marked s o n k : mfind o (rses s) = Some (mkSes n (Z.of_nat (S k)) true true) ->
  exists s', run (repeat (Leave o) (S k)) s = Some s' /\ lookup n (rtab s') = None /\ rcon s' = rcon s.
Proof.
  revert s. induction k as [|k IH]; intros s F; (assert (U : use o s = Some (mkSes n (Z.of_nat (S _)) true true)) by (apply use_some; split; [exact F|reflexivity])).
  - cbn [repeat run step]. rewrite U. unfold leave. rewrite U. cbn [sclients sname smarked]. change (Z.of_nat 1 <=? 0) with false. change ((Z.of_nat 1 =? 1) && true) with true. cbn iota.
    unfold removeSession, use, setSes. cbn [rses withSes]. rewrite mfind_mset_eq. cbn [salive sclients sname]. cbn [done]. eexists. split; [reflexivity|].
    cbn. split; [|reflexivity]. rewrite lookup_remove, String.eqb_refl. reflexivity.
  - change (repeat (Leave o) (S (S k))) with (Leave o :: repeat (Leave o) (S k)). cbn [run step]. rewrite U. unfold leave. rewrite U. cbn [sclients sname smarked].
    destruct (Z.leb_spec (Z.of_nat (S (S k))) 0); [lia|]. destruct (Z.eqb_spec (Z.of_nat (S (S k))) 1); [lia|]. cbn [andb done].
    destruct (IH (setSes o (mkSes n (Z.of_nat (S (S k)) - 1) true true) s)) as (s' & H1 & H2 & H3).
    { unfold setSes. cbn [rses withSes]. rewrite mfind_mset_eq. f_equal. f_equal. lia. }
    exists s'. split; [exact H1|]. split; [exact H2|]. rewrite H3. reflexivity.
Qed.
Lemma delete_replaced s o x : mfind o (rses s) = Some x -> (salive x = true -> smarked x = true /\ 0 < sclients x) -> deleteSession o s = None.
Proof.
  intros F C. unfold deleteSession, leaveAll, use. rewrite F. destruct (salive x) eqn:A; [|reflexivity]. destruct (C eq_refl) as [M K].
  destruct (Z.leb_spec (sclients x) 0); [lia|]. rewrite M. unfold removeSession, use, setSes. cbn [rses withSes]. rewrite mfind_mset_eq. cbn [salive sclients sname rses withTab withSes].
  change (0 =? 0) with true. cbn iota. rewrite mfind_mset_eq. reflexivity.
Qed.
