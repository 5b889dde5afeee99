(** C14, C15, C16, C17: the filter and path tables, failed commands, stop, and the inputs
    of a filter. *)
From Coq Require Import Permutation.
From Verif Require Import Base ZMap NetModel NetProofs PipeModel PipeSpec PipeProofs.

(** ** Replaying commands, for the examples. *)
Fixpoint replay (p : pipe) (l : list (env * cmd)) : res (pipe * list (cmd * bool)) :=
  match l with
  | [] => Ok (p, [])
  | (e, c) :: t => do (p1, a) <- pcmd p e c; do (p2, h) <- replay p1 t; Ok (p2, (c, a) :: h)
  end.
Lemma replay_phist l : forall p h p' h', phist p h -> replay p l = Ok (p', h') -> phist p' (h ++ h').
Proof.
  induction l as [|[e c] t IH]; intros p h p' h' H R; cbn [replay] in R.
  - inversion R; subst. rewrite app_nil_r. exact H.
  - apply bind_ok in R. destruct R as ([p1 a] & E & R). apply bind_ok in R. destruct R as ([p2 h2] & R2 & R). inversion R; subst.
    change (h ++ (c, a) :: h2) with (h ++ [(c, a)] ++ h2). rewrite app_assoc. apply (IH p1 _ p' h2); [|exact R2].
    apply (ph_snoc p h e c p1 a H E).
Qed.
Fixpoint allok (ok : pipe -> cmd -> pipe -> bool -> Prop) (p : pipe) (l : list (env * cmd)) : Prop :=
  match l with
  | [] => True
  | (e, c) :: t => match pcmd p e c with Ok (p1, a) => ok p c p1 a /\ allok ok p1 t | Bad _ => False end
  end.
Lemma replay_hist ok l : forall p h p' h', hist ok p h -> allok ok p l -> replay p l = Ok (p', h') -> hist ok p' (h ++ h').
Proof.
  induction l as [|[e c] t IH]; intros p h p' h' H A R; cbn [replay allok] in *.
  - inversion R; subst. rewrite app_nil_r. exact H.
  - apply bind_ok in R. destruct R as ([p1 a] & E & R). rewrite E in A. destruct A as [A1 A2].
    apply bind_ok in R. destruct R as ([p2 h2] & R2 & R). inversion R; subst.
    change (h ++ (c, a) :: h2) with (h ++ [(c, a)] ++ h2). rewrite app_assoc. apply (IH p1 _ p' h2); [|exact A2|exact R2].
    apply (h_snoc ok p h e c p1 a H E A1).
Qed.

(** Filters that accept everything. *)
Definition yes : env := mkEnv (fun _ _ => true) (fun _ _ => true) (fun _ _ => true) (fun _ _ => true) (fun _ => true) (fun _ => 5%N) (fun _ => 6%N).
(** A transmitter (filter 4) that does not accept its input 3. *)
Definition picky : env := mkEnv (fun f r => negb ((f =? 4) && (r =? 3))%Z) (fun _ _ => true) (fun _ _ => true) (fun _ _ => true) (fun _ => true) (fun _ => 5%N) (fun _ => 6%N).
(** A destination that reports a problem when its input is deleted. *)
Definition sulky : env := mkEnv (fun _ _ => true) (fun _ _ => true) (fun _ _ => false) (fun _ _ => true) (fun _ => true) (fun _ => 5%N) (fun _ => 6%N).

(** A receiver 1, a decoder 2, an encoder 3, a transmitter 4. *)
Definition plain : list (env * cmd) :=
  [(yes, CreateFilter 1 RECEIVER true); (yes, CreateFilter 2 VIDEO_DECODER true);
   (yes, CreateFilter 3 VIDEO_ENCODER true); (yes, CreateFilter 4 TRANSMITTER true)].

Ltac steps :=
  cbn [allok];
  repeat (match goal with
          | |- context[match pcmd ?p ?e ?c with _ => _ end] =>
              let r := eval vm_compute in (pcmd p e c) in
              let E := fresh in assert (E : pcmd p e c = r) by (vm_compute; reflexivity); rewrite E; clear E; cbn beta iota; split
          | |- True => exact I
          end).

Definition final (l : list (env * cmd)) : pipe := match replay emptyPipe l with Ok (p, _) => p | Bad _ => emptyPipe end.
Definition answers (l : list (env * cmd)) : list (cmd * bool) := match replay emptyPipe l with Ok (_, h) => h | Bad _ => [] end.
Lemma final_phist l p h : replay emptyPipe l = Ok (p, h) -> phist p h.
Proof. intros R. apply (replay_phist l emptyPipe [] p h ph_nil R). Qed.

Lemma nodup_app_l {A} (a b : list A) : NoDup (a ++ b) -> NoDup a.
Proof.
  induction a as [|x t IH]; cbn; [constructor|]. intros H. inversion H; subst. constructor; [|auto].
  intros Hin. apply H2. apply in_or_app. auto.
Qed.

Lemma nodup_app_r {A} (a b : list A) : NoDup (a ++ b) -> NoDup b.
Proof. induction a as [|x t IH]; cbn; [auto|]. intros H. inversion H; subst. auto. Qed.

(** ** C14 *)
(** One object per identifier and one identifier per object; the same for paths. *)
Theorem identifiers_unique p h : phist p h ->
  NoDup (mkeys (pfilters p)) /\ NoDup (mkeys (ppaths p)) /\
  (forall f g o, objOf p f = Some o -> objOf p g = Some o -> f = g) /\
  (forall i j pa pb, mfind i (ppaths p) = Some pa -> mfind j (ppaths p) = Some pb -> pobj pa = pobj pb -> i = j).
Proof.
  intros H. destruct (phist_inv p h H) as [PIp _].
  split; [apply (mkeys_nodup _ None), (wf_sorted _ (pi_wf p PIp))|]. split; [apply (mkeys_nodup _ None), (pi_paths p PIp)|].
  split; [|apply (pi_pinj p PIp)].
  intros f g o Hf Hg. unfold objOf in *. pose proof (pi_nodup p PIp) as N. apply nodup_app_l in N.
  destruct (mfind f (pfilters p)) as [x|] eqn:Ef; [|discriminate]. destruct (mfind g (pfilters p)) as [y|] eqn:Eg; [|discriminate].
  cbn in *. inversion Hf; subst o. inversion Hg as [Eo]. clear Hf Hg. apply mfind_In in Ef, Eg.
  revert N Ef Eg Eo. generalize (pfilters p). intros m. induction m as [|[k z] t IH]; cbn; [contradiction|].
  intros N [E1|E1] [E2|E2] Eo; inversion N; subst.
  - congruence.
  - inversion E1; subst. exfalso. apply H2. rewrite <- Eo. apply in_map_iff. exists (g, y). auto.
  - inversion E2; subst. exfalso. apply H2. rewrite Eo. apply in_map_iff. exists (f, x). auto.
  - apply IH; assumption.
Qed.

(** A taken identifier is refused and nothing happens. *)
Theorem taken_identifier_refused p e id :
  (objOf p id <> None -> forall t made, pcmd p e (CreateFilter id t made) = Ok (p, false)) /\
  (mfind id (ppaths p) <> None -> forall org dst ow dr mids, pcmd p e (CreatePath id org dst ow dr mids) = Ok (p, false)).
Proof.
  split.
  - intros H t made. cbn. unfold createFilter, mmem. unfold objOf in H. destruct (mfind id (pfilters p)); [|cbn in H; congruence].
    rewrite orb_true_r. reflexivity.
  - intros H org dst ow dr mids. cbn. unfold createPathEvent, createPath, mmem. destruct (mfind id (ppaths p)); [|congruence]. reflexivity.
Qed.

(** A path that names an unknown filter is refused and nothing happens. *)
Theorem path_of_unknown_filter_refused p e id org dst ow dr mids f :
  f = org \/ f = dst \/ In f mids -> objOf p f = None -> pcmd p e (CreatePath id org dst ow dr mids) = Ok (p, false).
Proof.
  intros Hf Hn. cbn. unfold createPathEvent, createPath.
  assert (Hm : mmem f (pfilters p) = false). { unfold mmem. unfold objOf in Hn. destruct (mfind f (pfilters p)); [discriminate|reflexivity]. }
  destruct (mmem id (ppaths p)); [reflexivity|]. destruct (mmem org (pfilters p)) eqn:Eo; [|reflexivity].
  destruct (mmem dst (pfilters p)) eqn:Ed; [|reflexivity]. cbn [negb].
  replace (existsb _ mids) with true; [reflexivity|]. symmetry. apply existsb_exists.
  destruct Hf as [->|[->|Hf]]; [congruence|congruence|]. exists f. split; [exact Hf|]. rewrite Hm. reflexivity.
Qed.

(** A filter that a registered path names is not removed. *)
Theorem used_filter_not_removed p h e i pa f : hist stopDone p h -> mfind i (ppaths p) = Some pa -> names pa f ->
  pcmd p e (RemoveFilter f) = Ok (p, false).
Proof.
  intros H Hi Hn. pose proof (hist_phist _ _ _ H) as Hp. destruct (phist_inv p h Hp) as [PIp _].
  cbn. unfold removeFilter. destruct (mfind f (pfilters p)) as [x|] eqn:Hf; [|reflexivity].
  assert (U : noPUAF (usedBy p (ppaths p) None f)).
  { apply usedBy_noPUAF. intros j pb Hj _. apply (live_hist p h H j pb). apply (In_mfind _ None); [apply (pi_paths p PIp)|exact Hj]. }
  pose proof (usedBy_safe p None f (ppaths p)) as S.
  assert (OK : exists u, usedBy p (ppaths p) None f = Ok u).
  { clear -U. revert U. generalize (ppaths p). intros m. induction m as [|[j pb] t IH]; cbn [usedBy]; [eauto|].
    destruct (negb (pathLive p pb)); [intros U; exfalso; apply U; reflexivity|]. intros U.
    destruct (hasFilter pb f); [|apply IH, U]. destruct (usedBy p t None f) as [u|b] eqn:E; cbn in *; [eauto|].
    destruct (IH U) as (u & Eu). discriminate. }
  destruct OK as (u & Eu). rewrite Eu. cbn [bind].
  assert (u = true). { apply (usedBy_spec p None f (ppaths p) u Eu). exists i, pa. split; [apply mfind_In, Hi|]. auto. }
  subst u. reflexivity.
Qed.

(** As long as clients keep mid filters to one path, every filter a registered path
    names exists. (Not proved, because false: without that restriction; see
    [shared_mid_filter_removed_refuted].) *)
Theorem registered_paths_complete_partial p h i pa f : hist xok p h -> mfind i (ppaths p) = Some pa -> names pa f -> objOf p f <> None.
Proof. intros H. apply (cp_names p (complete_hist p h H)). Qed.

(** Two paths share the mid filter 2; removing one deletes the filter under the other. *)
Definition sharing : list (env * cmd) :=
  [(yes, CreateFilter 1 RECEIVER true); (yes, CreateFilter 2 VIDEO_SPLITTER true); (yes, CreateFilter 3 TRANSMITTER true);
   (yes, CreatePath 10 1 3 7 7 [2%Z]); (yes, CreatePath 11 1 3 7 8 [2%Z]); (yes, RemovePath 10)].
Theorem shared_mid_filter_removed_refuted : exists p h pa, phist p h /\
  mfind 11 (ppaths p) = Some pa /\ names pa 2 /\ objOf p 2 = None /\
  (forall e, pcmd p e (RemovePath 11) = Ok (p, false)) /\ (forall e, pcmd p e Stop = Ok (p, false)).
Proof.
  destruct (replay emptyPipe sharing) as [[p h]|] eqn:R; [|vm_compute in R; discriminate].
  pose proof (final_phist _ _ _ R) as H. vm_compute in R. inversion R; subst. eexists _, _, _. split; [exact H|]. clear.
  split; [reflexivity|]. split; [right; right; left; reflexivity|]. split; [reflexivity|]. split; reflexivity.
Qed.

Definition two_paths : list (env * cmd) :=
  plain ++ [(yes, CreatePath 10 1 4 7 7 [2%Z; 3%Z]); (yes, CreatePath 11 1 4 8 8 [])].
Example used_filter_instance : exists p h pa, hist xok p h /\ hist stopDone p h /\ mfind 10 (ppaths p) = Some pa /\ names pa 3 /\ names pa 4 /\
  pcmd p yes (RemoveFilter 3) = Ok (p, false) /\ connected (pnet p) 1 7 2 1 /\ connected (pnet p) 3 1 4 7.
Proof.
  destruct (replay emptyPipe two_paths) as [[p h]|] eqn:R; [|vm_compute in R; discriminate].
  assert (A : allok xok emptyPipe two_paths).
  { unfold two_paths, plain. cbn [app]. steps; (split; [cbn [exclusive]; try exact I|unfold stopDone; discriminate]).
    - split; [intros i pa m Hi|intros i pa Hi]; discriminate Hi.
    - split; [intros i pa m Hi []|intros i pa Hi]. cbn [ppaths mfind] in Hi.
      destruct (Z.eqb_spec i 10) as [->|]; [|discriminate Hi]. injection Hi as <-. cbn. intuition discriminate. }
  assert (A2 : allok stopDone emptyPipe two_paths).
  { unfold two_paths, plain. cbn [app]. steps; unfold stopDone; discriminate. }
  pose proof (replay_hist xok _ _ _ _ _ (h_nil xok) A R) as H. pose proof (replay_hist stopDone _ _ _ _ _ (h_nil stopDone) A2 R) as H2.
  vm_compute in R. inversion R; subst. eexists _, _, _. split; [exact H|]. split; [exact H2|]. clear.
  split; [reflexivity|]. split; [right; right; right; left; reflexivity|]. split; [right; left; reflexivity|]. split; [reflexivity|].
  split; unfold connected; do 6 eexists; repeat split; try reflexivity; left; reflexivity.
Qed.

(** ** C15 *)
(** A failed command on a filter changes nothing. *)
Theorem failed_filter_command_changes_nothing p h e c p' : phist p h -> pcmd p e c = Ok (p', false) ->
  match c with CreateFilter _ _ _ | RemoveFilter _ => p' = p | _ => True end.
Proof.
  intros H E. destruct (phist_inv p h H) as [PIp _]. destruct c; try exact I; cbn [pcmd] in E.
  - inversion E as [E']. apply (createFilter_ok _ _ _ _ _ _ PIp E'). reflexivity.
  - pose proof (removeFilter_safe p id PIp) as S. rewrite E in S. destruct S as (_ & _ & S & _). auto.
Qed.

(** A failed command on a path leaves every filter, every other path and, for createPath,
    every existing connection in place. (Missing, because false: createPath does not
    take back the path and the connections it made, removePath not the
    disconnection; see the refutations.) *)
Theorem failed_path_command_keeps_rest_partial p h e c p' : phist p h -> pcmd p e c = Ok (p', false) ->
  match c with
  | CreatePath id _ _ _ _ _ =>
      (forall f, objOf p' f = objOf p f) /\
      (forall i, i <> id \/ mfind i (ppaths p) <> None -> mfind i (ppaths p') = mfind i (ppaths p)) /\
      (forall f w g r, connected (pnet p) f w g r -> connected (pnet p') f w g r)
  | RemovePath id => (forall f, objOf p' f = objOf p f) /\ ppaths p' = ppaths p
  | _ => True
  end.
Proof.
  intros H E. destruct (phist_inv p h H) as [PIp _]. destruct c; try exact I; cbn [pcmd] in E.
  - pose proof (createPathEvent_safe p e id org dst ow dr mids PIp) as S. rewrite E in S. cbn [safe] in S.
    destruct S as (_ & _ & _ & _ & Sk & K & _ & D). split; [intros f; apply skel_find, Sk|]. split; [|exact K].
    intros i Hi. destruct D as [[-> _]|(pa & R & Ep)]; [reflexivity|]. rewrite Ep, mfind_mset.
    destruct (Z.eqb_spec i id) as [->|]; [|reflexivity]. destruct R as (Hn & _). destruct Hi; congruence.
  - pose proof (removePath_safe p e id PIp) as S. rewrite E in S. destruct S as (_ & _ & _ & _ & S & _).
    destruct (S eq_refl) as (A & _ & _ & B). split; [intros f; apply skel_find, B|exact A].
Qed.

(** The same for a createPath that succeeds: nothing that was connected is lost. *)
Theorem create_path_keeps_connections p h e id org dst ow dr mids p' a : phist p h ->
  pcmd p e (CreatePath id org dst ow dr mids) = Ok (p', a) ->
  forall f w g r, connected (pnet p) f w g r -> connected (pnet p') f w g r.
Proof.
  intros H E. destruct (phist_inv p h H) as [PIp _]. cbn [pcmd] in E.
  pose proof (createPathEvent_safe p e id org dst ow dr mids PIp) as S. rewrite E in S. cbn [safe] in S. tauto.
Qed.

(** A refused createPath stays registered; the destination keeps a NULL input, and removing
    the path crashes. *)
Theorem failed_create_path_stays_registered_refuted : exists p h p' pa x,
  phist p h /\ pcmd p picky (CreatePath 10 1 4 7 3 []) = Ok (p', false) /\
  mfind 10 (ppaths p) = None /\ mfind 10 (ppaths p') = Some pa /\
  mfind 4 (pfilters p') = Some x /\ mfind 3 (frd x) = Some None /\
  forall e, pcmd p' e (RemovePath 10) = Bad NullDeref.
Proof.
  destruct (replay emptyPipe plain) as [[p h]|] eqn:R; [|vm_compute in R; discriminate].
  pose proof (final_phist _ _ _ R) as H. vm_compute in R. injection R as <- <-. eexists _, _, _, _, _. split; [exact H|]. clear.
  split; [vm_compute; reflexivity|]. repeat (split; [reflexivity|]). intros e. reflexivity.
Qed.

(** A createPath that fails at its last hop leaves the earlier hops connected. *)
Theorem failed_create_path_leaves_connections_refuted : exists p h p',
  phist p h /\ pcmd p picky (CreatePath 10 1 4 7 3 [2%Z; 3%Z]) = Ok (p', false) /\
  ~ connected (pnet p) 1 7 2 1 /\ connected (pnet p') 1 7 2 1.
Proof.
  destruct (replay emptyPipe plain) as [[p h]|] eqn:R; [|vm_compute in R; discriminate].
  pose proof (final_phist _ _ _ R) as H. vm_compute in R. injection R as <- <-. eexists _, _, _. split; [exact H|]. clear.
  split; [vm_compute; reflexivity|]. split.
  - intros (x & y & q & o & z & k & H1 & H2 & _). cbn in H1. inversion H1; subst. discriminate.
  - unfold connected. do 6 eexists. repeat split; try reflexivity. left. reflexivity.
Qed.

(** A removePath that answers with an error has disconnected the destination all the same. *)
Theorem failed_remove_path_disconnects_refuted : exists p h p',
  phist p h /\ pcmd p sulky (RemovePath 10) = Ok (p', false) /\
  connected (pnet p) 1 7 4 7 /\ ~ connected (pnet p') 1 7 4 7.
Proof.
  destruct (replay emptyPipe (plain ++ [(yes, CreatePath 10 1 4 7 7 [])])) as [[p h]|] eqn:R; [|vm_compute in R; discriminate].
  pose proof (final_phist _ _ _ R) as H. vm_compute in R. injection R as <- <-. eexists _, _, _. split; [exact H|]. clear.
  split; [vm_compute; reflexivity|]. split.
  - unfold connected. do 6 eexists. repeat split; try reflexivity. left. reflexivity.
  - intros (x & y & q & o & z & k & H1 & H2 & H3 & H4 & _). cbn in H3. injection H3 as <-. discriminate.
Qed.

(** A path from a filter to itself hangs the control thread: connect holds the filter's
    lock when it asks the same filter for its reader. *)
Theorem self_path_deadlocks p e id f ow dr : objOf p f <> None -> mfind id (ppaths p) = None ->
  pcmd p e (CreatePath id f f ow dr []) = Bad Deadlock.
Proof.
  intros Hf Hid. cbn [pcmd]. unfold createPathEvent. destruct (createPath_ok p e id f f ow dr []) as (p1 & b & E & F1 & F2).
  assert (b = true).
  { revert E. unfold createPath, mmem. rewrite Hid. unfold objOf in Hf. destruct (mfind f (pfilters p)) eqn:Ef; [|cbn in Hf; congruence].
    cbn [negb existsb dup]. intros E. apply bind_ok in E. destruct E as (w & _ & E). apply bind_ok in E. destruct E as (r & _ & E). congruence. }
  subst b. rewrite E. cbn [bind negb]. destruct (F2 eq_refl) as (pa & (R1 & R2 & R3 & R4 & _) & -> & _). cbn [ppaths]. rewrite mfind_mset_eq.
  unfold connectPath. rewrite R4. cbn [forallb negb]. unfold connect. rewrite R2, R3, Z.eqb_refl. reflexivity.
Qed.

Example failed_command_instance : exists p h, phist p h /\
  pcmd p yes (RemoveFilter 4) = Ok (p, false) /\ objOf p 4 = Some 3 /\ pcmd p yes (CreateFilter 4 DASHER true) = Ok (p, false).
Proof.
  destruct (replay emptyPipe two_paths) as [[p h]|] eqn:R; [|vm_compute in R; discriminate].
  pose proof (final_phist _ _ _ R) as H. vm_compute in R. injection R as <- <-. eexists _, _. split; [exact H|]. clear.
  repeat (split; [reflexivity|]). reflexivity.
Qed.

(** ** C16 *)
(** When stop succeeds, there is nothing left, every filter ever created was deleted exactly
    once and every path registered before the stop was deleted exactly once. *)
Theorem stop_releases_everything_once p h e p' : phist p h -> pcmd p e Stop = Ok (p', true) ->
  pfilters p' = [] /\ ppaths p' = [] /\
  NoDup (goneF p') /\ length (goneF p') = creations h /\ (forall f o, objOf p f = Some o -> In o (goneF p')) /\
  NoDup (goneP p') /\ (forall i pa, mfind i (ppaths p) = Some pa -> In (pobj pa) (goneP p')).
Proof.
  intros H E. pose proof (ph_snoc p h e Stop p' true H E) as H'. destruct (phist_inv p h H) as [PIp _].
  destruct (phist_inv p' _ H') as [PIp' C]. cbn [pcmd] in E.
  pose proof (stop_safe p e PIp) as S. rewrite E in S. destruct S as (_ & Cn & S). destruct (S eq_refl) as (A1 & A2 & A3).
  rewrite A2 in C. cbn in C. rewrite creations_app, creations_one, Nat.add_0_r in C.
  split; [exact A2|]. split; [exact A1|]. pose proof (pi_nodup p' PIp') as N. rewrite A2 in N. cbn in N. split; [exact N|].
  split; [exact C|]. split; [|split; [apply (pi_pnodup p' PIp')|exact A3]].
  intros f o Ho. unfold counted in Cn. rewrite A2 in Cn. cbn in Cn. apply (Permutation_in _ (Permutation_sym Cn)).
  apply in_or_app. left. unfold objOf in Ho. destruct (mfind f (pfilters p)) as [x|] eqn:Hf; [|discriminate]. cbn in Ho. inversion Ho; subst.
  destruct (objs_mdel _ _ _ Hf) as (a & b & -> & _). apply in_or_app. right. left. reflexivity.
Qed.

(** Without paths stop succeeds, whatever filters there are. *)
Theorem stop_without_paths p h e : phist p h -> ppaths p = [] -> pfilters p <> [] -> exists p', pcmd p e Stop = Ok (p', true).
Proof.
  intros H Hn Hf. destruct (phist_inv p h H) as [PIp _]. apply (stop_nopaths p e PIp (pi_pool p PIp Hf) Hn).
Qed.

(** With one path stop succeeds whenever that path could be removed. *)
Theorem stop_with_one_path p h e i pa p1 : phist p h -> ppaths p = [(i, pa)] -> pcmd p e (RemovePath i) = Ok (p1, true) ->
  exists p', pcmd p e Stop = Ok (p', true).
Proof.
  intros H Hn Hr. destruct (phist_inv p h H) as [PIp _]. cbn [pcmd] in Hr. unfold removePath, mmem in Hr. rewrite Hn in Hr at 1. cbn [mfind] in Hr.
  rewrite Z.eqb_refl in Hr. cbn [negb] in Hr. apply bind_ok in Hr. destruct Hr as ([q ok] & D & Hr). destruct ok; [|discriminate].
  apply (stop_onepath p e i pa q PIp Hn D).
Qed.

(** With two or more registered paths stop never succeeds. *)
Theorem stop_with_two_paths_never_succeeds p h e p' : phist p h -> 2 <= length (ppaths p) -> pcmd p e Stop <> Ok (p', true).
Proof.
  intros H H2 E. destruct (phist_inv p h H) as [PIp _]. pose proof (stop_twopaths p e p' true PIp H2 E). discriminate.
Qed.
(** It reads a Path object it deleted. *)
Theorem stop_with_two_paths_use_after_free_refuted : exists p h, phist p h /\ 2 = length (ppaths p) /\
  pcmd p yes Stop = Bad PathUseAfterFree.
Proof.
  destruct (replay emptyPipe two_paths) as [[p h]|] eqn:R; [|vm_compute in R; discriminate].
  pose proof (final_phist _ _ _ R) as H. vm_compute in R. injection R as <- <-. eexists _, _. split; [exact H|]. clear.
  split; vm_compute; reflexivity.
Qed.

(** No history of commands ever makes the program touch a deleted queue or delete a queue or
    filter twice. *)
Theorem no_queue_or_filter_misuse p h e c : phist p h -> pcmd p e c <> Bad UseAfterFree /\ pcmd p e c <> Bad DoubleFree.
Proof.
  intros H. destruct (phist_inv p h H) as [PIp _]. pose proof (cmd_safe p e c PIp) as S.
  destruct (pcmd p e c) as [x|[]]; split; try discriminate; contradiction.
Qed.
(** Deleted paths are only touched by stop, or after one that failed. *)
Theorem paths_not_used_after_free p h e c : hist stopDone p h -> c <> Stop -> pcmd p e c <> Bad PathUseAfterFree.
Proof.
  intros H Hc. apply cmd_noPUAF; [apply (phist_inv p h (hist_phist _ _ _ H))|apply (live_hist p h H)|exact Hc].
Qed.
(** Every filter ever created is either in the table or was deleted, once. *)
Theorem filters_accounted p h : phist p h ->
  length (pfilters p) + length (goneF p) = creations h /\ NoDup (goneF p) /\ (forall f o, objOf p f = Some o -> ~ In o (goneF p)).
Proof.
  intros H. destruct (phist_inv p h H) as [PIp C]. split; [exact C|]. pose proof (pi_nodup p PIp) as N.
  split; [apply (nodup_app_r _ _ N)|]. intros f o Ho Hin. unfold objOf in Ho. destruct (mfind f (pfilters p)) as [x|] eqn:Hf; [|discriminate].
  cbn in Ho. inversion Ho; subst. destruct (objs_mdel _ _ _ Hf) as (a & b & E1 & _). rewrite E1, <- app_assoc in N. cbn in N.
  apply NoDup_remove_2 in N. apply N. apply in_or_app. right. apply in_or_app. right. exact Hin.
Qed.

Example stop_instance : exists p h p', phist p h /\ ppaths p <> [] /\ creations h = 4 /\ pcmd p yes Stop = Ok (p', true) /\ length (goneF p') = 4.
Proof.
  destruct (replay emptyPipe (plain ++ [(yes, CreatePath 10 1 4 7 7 [2%Z; 3%Z])])) as [[p h]|] eqn:R; [|vm_compute in R; discriminate].
  pose proof (final_phist _ _ _ R) as H. vm_compute in R. injection R as <- <-. eexists _, _, _. split; [exact H|]. clear.
  split; [discriminate|]. split; [reflexivity|]. split; vm_compute; reflexivity.
Qed.

(** ** C17 *)
Theorem input_identifiers_distinct p h f x : phist p h -> mfind f (pfilters p) = Some x ->
  NoDup (mkeys (frd x)) /\ NoDup (mkeys (fwr x)).
Proof.
  intros H Hf. destruct (phist_inv p h H) as [PIp _]. destruct (wf_sorted _ (pi_wf p PIp)) as [_ S]. destruct (S f x Hf) as [S1 S2].
  split; apply (mkeys_nodup _ None); assumption.
Qed.

(** Within the declared number, if every path starts at a free output. (Missing, because false:
    grouped connections; see [shared_input_exceeds_limit_refuted].) *)
Theorem inputs_within_limit_partial p h f x : hist direct p h -> mfind f (pfilters p) = Some x -> length (frd x) <= fmaxR x.
Proof. intros H. apply (lim_hist p h H). Qed.

(** A decoder, which takes one input, gets two by sharing. *)
Theorem shared_input_exceeds_limit_refuted : exists p h x, phist p h /\ mfind 2 (pfilters p) = Some x /\ fmaxR x = 1 /\
  mkeys (frd x) = [1%Z; 9%Z] /\ connected (pnet p) 1 7 2 1 /\ connected (pnet p) 1 8 2 9.
Proof.
  destruct (replay emptyPipe (plain ++ [(yes, CreatePath 10 1 4 7 7 []); (yes, CreatePath 11 1 4 8 8 []);
                                       (yes, CreatePath 12 1 2 7 1 []); (yes, CreatePath 13 1 2 8 9 [])])) as [[p h]|] eqn:R; [|vm_compute in R; discriminate].
  pose proof (final_phist _ _ _ R) as H. vm_compute in R. injection R as <- <-. eexists _, _, _. split; [exact H|]. clear.
  repeat (split; [reflexivity|]). split; unfold connected; do 6 eexists; repeat split; try reflexivity; right; left; reflexivity.
Qed.

(** A refused connection leaves all inputs as they were, if the filter class itself does not
    object. (Missing, because false: if it does, a NULL input is registered.) *)
Theorem refused_connection_keeps_inputs_partial p h e f w g r n' : phist p h ->
  (forall z, rcfg e g z = true) -> connect (pnet p) e f w g r = Ok (n', false) ->
  forall k x, mfind k (pfilters p) = Some x -> exists x', mfind k (fs n') = Some x' /\ frd x' = frd x.
Proof.
  intros H Hc E. destruct (phist_inv p h H) as [PIp _].
  assert (Hfg : f <> g) by (intros ->; unfold connect in E; rewrite Z.eqb_refl in E; discriminate).
  destruct (mfind g (fs (pnet p))) as [y|] eqn:Hg.
  2:{ unfold connect in E. destruct (Z.eqb_spec f g); [contradiction|]. unfold getF in E. rewrite Hg in E. discriminate. }
  destruct (mfind f (fs (pnet p))) as [x|] eqn:Hf.
  - destruct (connect_ok (pnet p) e f w g r x y (pi_wf p PIp) Hf Hg Hfg) as (n2 & b & E2 & _ & _ & _ & _ & _ & F).
    rewrite E in E2. inversion E2; subst. intros k z Hz. apply (F eq_refl Hc k z Hz).
  - unfold connect in E. destruct (Z.eqb_spec f g); [contradiction|]. apply bind_ok in E. destruct E as (y' & _ & E).
    apply bind_ok in E. destruct E as (busy & _ & E). destruct busy; [inversion E; subst; eauto|].
    unfold setWriter, getF in E. rewrite Hf in E. discriminate.
Qed.
Theorem refused_connection_registers_input_refuted : exists p h n' x x', phist p h /\
  connect (pnet p) picky 1 7 4 3 = Ok (n', false) /\ mfind 4 (pfilters p) = Some x /\ mfind 4 (fs n') = Some x' /\
  frd x = [] /\ mkeys (frd x') = [3%Z].
Proof.
  destruct (replay emptyPipe plain) as [[p h]|] eqn:R; [|vm_compute in R; discriminate].
  pose proof (final_phist _ _ _ R) as H. vm_compute in R. injection R as <- <-. eexists _, _, _, _, _. split; [exact H|]. clear.
  split; [vm_compute; reflexivity|]. repeat (split; [reflexivity|]). reflexivity.
Qed.

Example inputs_instance : exists p h x, hist direct p h /\ mfind 4 (pfilters p) = Some x /\ length (frd x) = 2.
Proof.
  destruct (replay emptyPipe two_paths) as [[p h]|] eqn:R; [|vm_compute in R; discriminate].
  assert (A : allok direct emptyPipe two_paths).
  { unfold two_paths, plain. cbn [app]. steps; cbn [direct]; try exact I.
    - intros x Hx. cbn in Hx. injection Hx as <-. split; [reflexivity|lia].
    - intros x Hx. cbn in Hx. injection Hx as <-. split; [reflexivity|lia]. }
  pose proof (replay_hist direct _ _ _ _ _ (h_nil direct) A R) as H.
  vm_compute in R. injection R as <- <-. eexists _, _, _. split; [exact H|]. split; reflexivity.
Qed.

Print Assumptions identifiers_unique.
Print Assumptions taken_identifier_refused.
Print Assumptions path_of_unknown_filter_refused.
Print Assumptions used_filter_not_removed.
Print Assumptions registered_paths_complete_partial.
Print Assumptions shared_mid_filter_removed_refuted.
Print Assumptions failed_filter_command_changes_nothing.
Print Assumptions failed_path_command_keeps_rest_partial.
Print Assumptions create_path_keeps_connections.
Print Assumptions failed_create_path_stays_registered_refuted.
Print Assumptions failed_create_path_leaves_connections_refuted.
Print Assumptions failed_remove_path_disconnects_refuted.
Print Assumptions self_path_deadlocks.
Print Assumptions stop_releases_everything_once.
Print Assumptions stop_without_paths.
Print Assumptions stop_with_one_path.
Print Assumptions stop_with_two_paths_never_succeeds.
Print Assumptions stop_with_two_paths_use_after_free_refuted.
Print Assumptions no_queue_or_filter_misuse.
Print Assumptions paths_not_used_after_free.
Print Assumptions filters_accounted.
Print Assumptions input_identifiers_distinct.
Print Assumptions inputs_within_limit_partial.
Print Assumptions shared_input_exceeds_limit_refuted.
Print Assumptions refused_connection_keeps_inputs_partial.
Print Assumptions refused_connection_registers_input_refuted.
