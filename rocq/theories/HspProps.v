(** C61: the parameter sets of the session description reach the readers of a received stream, and units arrive
    after a start code, complete and in order. *)
From Verif Require Import Base Bytes TxModel TxSpec TxProofs TxProps HspModel HspSpec HspProofs.
Local Open Scope list_scope.
Local Open Scope Z_scope.

(** If the parameter sets asked for so far fit, then whatever is requested: the requests beyond the number of
    parameter sets are answered each with its unit after a start code, cut to the space given, and with the time of
    the unit; the others are answered with an untouched buffer, a size nobody has set and time zero. *)
Theorem C61_units_partial : forall rs g es, Forall roomy es -> len (config (firstn (length es) rs)) <= 128 ->
  snd (hrun es (newFilter rs g)) = repeat (Handed g None 0 0) (min (length es) (length rs)) ++ map frameFor (skipn (length rs) es).
Proof.
  intros rs g es R F. destruct (requests_run rs es (newFilter rs g) (inv_new rs g) R F) as (f & E & _).
  rewrite E. cbn [snd newFilter frameSize frameTime injected]. rewrite Nat.sub_0_r. reflexivity.
Qed.
(** With no parameter sets announced every request is answered as it should be. *)
Theorem C61_none_announced : forall g es, Forall roomy es -> snd (hrun es (newFilter [] g)) = map frameFor es.
Proof. intros g es R. rewrite C61_units_partial; [rewrite Nat.min_0_r; reflexivity|exact R|]. rewrite firstn_nil. cbn. lia. Qed.
(** Otherwise the first requests hand the reader frames of whatever size the memory held: with one parameter set
    announced, no answer to a request is right the first time. *)
Theorem C61_phantom_refuted : forall rs g e, rs <> [] -> roomy e -> len (config (firstn 1 rs)) <= 128 ->
  snd (hrun [e] (newFilter rs g)) = [Handed g None 0 0] /\ snd (hrun [e] (newFilter rs g)) <> [frameFor e].
Proof.
  intros rs g e N R F. rewrite C61_units_partial; [|constructor; [exact R|constructor]|exact F].
  destruct rs as [|r rs]; [congruence|]. cbn [length Nat.min repeat skipn]. rewrite skipn_nil. cbn [map app]. split; [reflexivity|].
  destruct e; [|destruct R]. discriminate.
Qed.

(** Memory outside the 128 bytes kept for parameter sets is written exactly when those asked for so far, with
    their start codes, are longer. *)
Theorem C61_overflow_refuted : forall rs g es, Forall roomy es ->
  (In Broken (snd (hrun es (newFilter rs g))) <-> 128 < len (config (firstn (length es) rs))).
Proof.
  intros rs g es R. split; intros H.
  - destruct (Z.leb_spec (len (config (firstn (length es) rs))) 128) as [L|L]; [|lia].
    rewrite (C61_units_partial _ _ _ R L) in H. apply in_app_or in H. destruct H as [H|H].
    + apply repeat_spec in H. discriminate.
    + apply in_map_iff in H. destruct H as ([s u t|] & X & _); discriminate.
  - apply (requests_break rs es (newFilter rs g)); [apply inv_new|exact R|exact H|]. cbn. lia.
Qed.
(** So a server decides: for every filter that has to be asked at all there is a description that breaks it. *)
Theorem C61_one_set_suffices_refuted : forall g e (b : Z), roomy e ->
  In Broken (snd (hrun [e] (newFilter [repeat b 125] g))).
Proof.
  intros g e b R. apply C61_overflow_refuted; [constructor; [exact R|constructor]|]. cbn [length firstn config flat_map].
  rewrite app_nil_r, len_app. unfold len. rewrite repeat_length. cbn. lia.
Qed.
(** A buffer without room for a start code is overrun, whatever is received. *)
Theorem C61_small_buffer_refuted : forall g space u t, 0 <= space < 4 ->
  snd (hrun [Request space u t] (newFilter [] g)) = [Broken].
Proof.
  intros g space u t H. cbn [hrun hstep]. unfold request. cbn [newFilter records injected nth_error]. change (len startCode) with 4.
  pose proof (len_nn (firstn (Z.to_nat (w32 (space - 4))) u)). destruct (Z.ltb_spec space (4 + len (firstn (Z.to_nat (w32 (space - 4))) u))); [reflexivity|lia].
Qed.

(** The configuration data the readers see are those of the parameter sets asked for before the first connection,
    and they stay so for ever: complete exactly if all had been asked for. *)
Theorem C61_configuration_partial : forall rs g es es2, Forall roomy es -> len (config (firstn (length es) rs)) <= 128 ->
  let final := hrun (es ++ Connect :: es2) (newFilter rs g) in
  let seen := config (firstn (length es) rs) in
  info (fst final) = Some seen /\ In (Info seen) (snd final) /\ (forall x, In (Info x) (snd final) -> x = seen) /\
  (seen = config rs <-> (length rs <= length es)%nat).
Proof.
  intros rs g es es2 R F final seen. destruct (requests_run rs es (newFilter rs g) (inv_new rs g) R F) as (f & E & (I1 & I2 & I3) & C & O).
  cbn [newFilter frameSize frameTime injected] in E, C. rewrite Nat.sub_0_r in E. cbn [info newFilter] in O. cbn [Nat.add] in C.
  assert (NB : ~ In Broken (snd (hrun es (newFilter rs g)))).
  { intros X. apply C61_overflow_refuted in X; [lia|exact R]. }
  assert (EX : extradata f = seen).
  { rewrite I3, C. unfold seen. destruct (Nat.le_ge_cases (length es) (length rs)); [rewrite Nat.min_l by lia; reflexivity|].
    rewrite Nat.min_r by lia. rewrite !firstn_all2 by lia. reflexivity. }
  unfold final. rewrite hrun_app by exact NB. rewrite E. cbn [fst snd hrun hstep connect]. rewrite O.
  match goal with |- context [hrun es2 ?x] => pose proof (info_kept es2 x (extradata f) eq_refl) as [K1 K2]; destruct (hrun es2 x) as [f2 os] end.
  cbn [fst snd] in *. rewrite EX in *. split; [exact K1|]. split; [apply in_or_app; right; left; reflexivity|]. split.
  { intros x X. apply in_app_or in X. destruct X as [X|[X|X]]; [|injection X as <-; reflexivity|auto].
    apply in_app_or in X. destruct X as [X|X]; [apply repeat_spec in X; discriminate|].
    apply in_map_iff in X. destruct X as ([s u t|] & X & Y); [discriminate|].
    assert (Z0 : In Connect es) by (rewrite <- (firstn_skipn (length rs) es); apply in_or_app; right; exact Y).
    rewrite Forall_forall in R. destruct (R _ Z0). }
  split; intros H.
  - destruct (Nat.leb_spec (length rs) (length es)) as [L|L]; [exact L|]. exfalso.
    assert (H2 : config rs = seen ++ config (skipn (length es) rs)) by (unfold seen; rewrite <- config_app, firstn_skipn; reflexivity).
    rewrite H2 in H. apply (f_equal len) in H. rewrite len_app in H. destruct (skipn (length es) rs) as [|r l] eqn:Q.
    + apply (f_equal (@length _)) in Q. rewrite skipn_length in Q. cbn in Q. lia.
    + cbn [config flat_map] in H. fold (config l) in H. rewrite !len_app in H. change (len [0; 0; 0; 1]) with 4 in H. pose proof (len_nn r). pose proof (len_nn (config l)). lia.
  - unfold seen. rewrite firstn_all2 by exact H. reflexivity.
Qed.
(** A reader connected at once gets no parameter sets, however long one waits and however often one reconnects. *)
Theorem C61_early_connection_refuted : forall rs g es2 x, rs <> [] ->
  In (Info x) (snd (hrun (Connect :: es2) (newFilter rs g))) -> x = [] /\ config rs <> [].
Proof.
  intros rs g es2 x N H. destruct (C61_configuration_partial rs g [] es2) as (_ & _ & K & _); [constructor|cbn; lia|].
  split; [apply K, H|]. destruct rs; [congruence|discriminate].
Qed.
(** End to end: if the reader is connected after the parameter sets have been asked for, and they fit, the
    transmitter that gets the configuration data announces the last SPS, PPS and VPS of the description, with all
    their bytes; the announced size is right if they are shorter than 256 bytes. *)
Theorem C61_announced_sets_partial : forall c rs g es after, Forall roomy es -> rs <> [] -> (length rs <= length es)%nat ->
  len (config rs) <= 128 -> Forall okUnit rs ->
  exists ex, In (Info ex) (snd (hrun (es ++ [Connect]) (newFilter rs g))) /\
    let entry t := match lastOf c t (map (fun r => (Long, r)) rs) with Some u => Some (u, len u) | None => None end in
    fst (parseExtradata c ex after) = Parsed (mkH (entry (vpsType c)) (entry (spsType c)) (entry (ppsType c))).
Proof.
  intros c rs g es after R N L F O.
  assert (F' : len (config (firstn (length es) rs)) <= 128) by (rewrite firstn_all2 by exact L; exact F).
  destruct (C61_configuration_partial rs g es [] R F') as (_ & IN & _ & _).
  exists (config rs). split; [rewrite firstn_all2 in IN by exact L; exact IN|].
  assert (W : config rs = wire (map (fun r => (Long, r)) rs)).
  { clear. unfold wire, config. induction rs; [reflexivity|]. cbn [map flat_map fst snd codeBytes]. rewrite IHrs. reflexivity. }
  cbv zeta. rewrite W. rewrite C36_parameter_sets_partial.
  2:{ destruct rs; [congruence|discriminate]. }
  2:{ rewrite Forall_map. exact O. }
  assert (S : forall u, In u rs -> len u < 256).
  { intros u I. apply in_split in I. destruct I as (l1 & l2 & ->). rewrite config_app in F. cbn [config flat_map] in F. fold (config l2) in F.
    rewrite !len_app in F. pose proof (len_nn (config l1)). pose proof (len_nn (config l2)). change (len [0; 0; 0; 1]) with 4 in F. lia. }
  assert (Q : forall t, match lastOf c t (map (fun r => (Long, r)) rs) with Some u => Some (u, len u mod 256) | None => None end =
                        match lastOf c t (map (fun r => (Long, r)) rs) with Some u => Some (u, len u) | None => None end).
  { intros t. destruct (lastOf c t _) as [u|] eqn:E; [|reflexivity]. f_equal. f_equal. apply Z.mod_small. split; [apply len_nn|]. apply S.
    unfold lastOf in E. rewrite map_map, map_id in E. destruct (List.filter (hasType c t) rs) as [|v l] eqn:Fl; [discriminate E|].
    pose proof (last_in _ (map Some (v :: l)) None ltac:(discriminate)) as I. rewrite E in I. rewrite <- Fl in I.
    apply in_map_iff in I. destruct I as (w & X & I). injection X as ->. apply filter_In in I. apply I. }
  rewrite !Q. reflexivity.
Qed.

Definition exSets : list bytes := [[103; 66; 0; 30]; [104; 206; 60; 128]].
Definition exRequests : list hevent := [Request 1500 [101; 1] 10; Request 1500 [101; 2] 20; Request 1500 [101; 3] 30; Request 6 [101; 4; 5] 40].
Example C61_case : Forall roomy exRequests /\ Forall okUnit exSets /\ len (config exSets) = 16 /\
  snd (hrun (exRequests ++ [Connect]) (newFilter exSets 77)) =
    [Handed 77 None 0 0; Handed 77 None 0 0; Handed 6 (Some [0; 0; 0; 1; 101; 3]) 30 0; Handed 6 (Some [0; 0; 0; 1; 101; 4]) 40 1; Info (config exSets)].
Proof.
  split; [repeat constructor; cbn; lia|]. split; [|split; vm_compute; reflexivity].
  repeat constructor; try discriminate; try (unfold isByte; lia);
    intros a b E; do 5 (destruct a as [|? a]; [try discriminate|cbn in E; try (injection E as ? E); try discriminate]).
Qed.
Print Assumptions C61_units_partial.
Print Assumptions C61_none_announced.
Print Assumptions C61_phantom_refuted.
Print Assumptions C61_overflow_refuted.
Print Assumptions C61_one_set_suffices_refuted.
Print Assumptions C61_small_buffer_refuted.
Print Assumptions C61_configuration_partial.
Print Assumptions C61_early_connection_refuted.
Print Assumptions C61_announced_sets_partial.
