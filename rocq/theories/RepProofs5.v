(** Proofs about the reports of state: their text, and what they do not tell. *)
From Coq Require Import Ascii String Sorting.Sorted.
From Verif Require Import Base ZMap F32 JsonModel JsonSpec JsonProofs NamesModel NamesProps CtlModel CtlSpec CtlProofs FtxModel FtxSpec FtxProofs FtxProps EvtModel EvtSpec EvtProofs RepModel RepSpec RepProofs RepProofs2 RepProofs3 RepProofs4.
From Verif Require PipeModel MixModel VidModel AdcModel AenModel EncModel MpdModel VidProofs EncProofs MpdProofs.
Local Open Scope string_scope.
Local Open Scope list_scope.
Local Open Scope Z_scope.

(** *** The text of the report is read as the report. *)
Notation good := JsonSpec.good.
Lemma clean_good s : clean s -> goodText s.
Proof. intros C a ->. apply C. apply in_or_app. right. left. reflexivity. Qed.
Lemma digits_good s z : digits s z -> Forall (fun c => In c (list_ascii_of_string "0123456789.-")) s.
Proof.
  intros D. induction D as [|s z d D IH B]; [constructor|]. apply Forall_app. split; [exact IH|]. constructor; [|constructor].
  assert (C : In d [0; 1; 2; 3; 4; 5; 6; 7; 8; 9]) by (cbn; lia). cbn in C. repeat (destruct C as [<-|C]; [vm_compute; tauto|]). destruct C.
Qed.
Lemma int_good z : int32 z -> good (ofInt z).
Proof.
  intros I0. constructor. destruct (intText_is z I0) as [_ [[N D]|(t & E & N & D)]].
  - split; [exact N|]. apply (digits_good _ _ D).
  - rewrite E. split; [discriminate|]. constructor; [vm_compute; tauto|apply (digits_good _ _ D)].
Qed.
Lemma float_good v : sized v -> good (floatNode v).
Proof. intros H. constructor. apply C86_text_is_a_number, H. Qed.
Lemma text_good s : clean s -> good (ofText s).
Proof. intros C. unfold ofText. rewrite unescape_plain by exact C. constructor. apply clean_good, C. Qed.
Lemma bool_good b : good (ofBool b). Proof. destruct b; constructor. Qed.
Definition keyOk (k : string) : bool := forallb (fun c => negb (Ascii.eqb c quote) && negb (Ascii.eqb c bslash)) (lit k).
Lemma key_good k : keyOk k = true -> goodName (lit k).
Proof.
  unfold keyOk. rewrite forallb_forall. intros H. split.
  - intros a b E. specialize (H quote). rewrite E in H. assert (I0 : In quote (a ++ quote :: b)) by (apply in_or_app; right; left; reflexivity). specialize (H I0). rewrite Ascii.eqb_refl in H. discriminate H.
  - intros a E. specialize (H bslash). rewrite E in H. assert (I0 : In bslash (a ++ [bslash])) by (apply in_or_app; right; left; reflexivity). specialize (H I0). rewrite Ascii.eqb_refl, andb_false_r in H. discriminate H.
Qed.
Lemma obj_good l : forallb (fun x => keyOk (fst x)) l = true -> Forall (fun x => good (snd x)) l -> good (Obj (object l)).
Proof.
  intros K F. constructor. intros k v I0. unfold object in I0. apply in_map_iff in I0. destruct I0 as ([k' n] & E & I0). injection E as <- <-. rewrite forallb_forall in K. rewrite Forall_forall in F.
  split; [apply key_good, (K _ I0)|apply (F _ I0)].
Qed.
Lemma app_good a b : good (Obj a) -> good (Obj b) -> good (Obj (a ++ b)).
Proof. intros A B. inversion A as [| | | | |c HA|]; inversion B as [| | | | |c' HB|]; subst. constructor. intros k v I0. apply in_app_or in I0. destruct I0; auto. Qed.
Lemma arr_good {A} (f : A -> node) l : Forall (fun x => good (f x)) l -> good (Arr (map f l)).
Proof. intros F. constructor. intros v I0. apply in_map_iff in I0. destruct I0 as (x & <- & I0). rewrite Forall_forall in F. apply F, I0. Qed.
Local Opaque ofInt floatNode ofText ofBool cast toF decimal intText F32.one.
Lemma lit_good s : keyOk s = true -> good (texts s).
Proof.
  intros H. apply text_good. intros I0. unfold keyOk in H. rewrite forallb_forall in H. specialize (H _ I0). rewrite andb_true_iff in H. destruct H as [_ H]. discriminate H.
Qed.
Ltac goods := repeat match goal with
  | |- Forall _ (_ :: _) => apply Forall_cons; cbn [snd]
  | |- Forall _ [] => apply Forall_nil
  | |- good (Obj (object _)) => apply obj_good; [reflexivity|]
  | |- good (ofInt (cast _)) => apply int_good, cast_range
  | |- good (ofInt _) => apply int_good; assumption
  | |- good (floatNode _) => apply float_good; assumption
  | |- good (ofBool _) => apply bool_good
  | |- good (ofText _) => apply text_good; assumption
  | |- good (texts _) => apply lit_good; solve [reflexivity | match goal with |- keyOk (_ ?x) = true => destruct x; reflexivity end]
  end.
Lemma digits_clean z : 0 <= z < 10 ^ 20 -> clean (decimal 20 z).
Proof. intros B. destruct (decimal_digits 20 z B) as [D _]. apply (digits_no_escape _ _ D). Qed.
Lemma intText_clean z : - 10 ^ 20 < z < 10 ^ 20 -> clean (intText z).
Proof.
  intros B. Local Transparent intText. unfold intText. Local Opaque intText. destruct (Z.ltb_spec z 0).
  - intros [E|I0]; [discriminate E|]. revert I0. apply digits_clean. lia.
  - apply digits_clean. lia.
Qed.
Lemma rate_good v : 0 <= v -> v < 1000000 -> good (floatNode (toF v)).
Proof.
  intros A B. destruct (toF_plain v (conj A B)) as [E _]. rewrite E. apply float_good. destruct (Z.eq_dec v 0) as [->|N]; [left; reflexivity|]. right.
  assert (O : 0 < one) by reflexivity. rewrite Z.abs_eq by nia. split; nia.
Qed.
Lemma stat_good s : plainStat s -> good (Obj (statNodes s)).
Proof.
  destruct s as [q [[ra rl] rm] [[la ll] lm] [[ja jl] jm] [[da dl] dm]]. unfold plainStat, three_ok, statNodes. cbn [ssrc rate loss jitter delay fst snd]. intros H. splits. apply obj_good; [reflexivity|].
  goods; try (apply rate_good; assumption). apply text_good, digits_clean. change (2 ^ 32) with 4294967296 in *. change (10 ^ 20) with 100000000000000000000. lia.
Qed.
Lemma stats_good l : Forall plainStat l -> forall o, good (Obj o) -> Forall good (statList o l).
Proof.
  induction 1 as [|s r P F IH]; intros o G; cbn [statList]; [constructor|]. assert (G1 : good (Obj (o ++ statNodes s))) by (apply app_good; [exact G|apply stat_good, P]). constructor; [exact G1|apply IH, G1].
Qed.
Lemma conn_good c : plainConn c -> good (connNode c).
Proof.
  intros (W & S0 & R). unfold connNode. assert (GS : good (Arr (statList [] (streams c)))).
  { assert (N : good (Obj [])) by (constructor; intros k v []). pose proof (stats_good _ S0 [] N) as F. rewrite Forall_forall in F. constructor. exact F. }
  assert (GR : good (Arr (map ofInt (readers c)))) by (apply arr_good; eapply Forall_impl; [|exact R]; intros; apply int_good; assumption).
  destruct (who c); splits; cbn [app]; goods; try assumption. apply text_good, digits_clean. change (2 ^ 32) with 4294967296 in *. change (10 ^ 20) with 100000000000000000000. lia.
Qed.
Lemma report_good st : plainState st -> sizedState st -> good (Obj (report st)).
Proof.
  destruct st; cbn [plainState sizedState report]; intros P Z0; cbv zeta in *; splits.
  - goods. apply arr_good. rewrite Forall_forall in *. intros x I0. match goal with H : forall x, In x _ -> int32 _ /\ _ |- _ => destruct (H x I0) end. match goal with H : forall x, In x _ -> sized _ |- _ => pose proof (H x I0) end. unfold gainNode. goods.
  - goods. apply arr_good. rewrite Forall_forall in *. intros x I0. match goal with H : forall x, In x _ -> int32 _ /\ _ |- _ => destruct (H x I0) as (? & ? & _) end.
    match goal with H : forall x, In x _ -> Forall sized _ |- _ => pose proof (H x I0) end. splits. unfold channelNode. goods.
  - goods. apply arr_good. rewrite Forall_forall in *. intros x I0. match goal with H : forall x, In x _ -> Forall int32 _ |- _ => pose proof (H x I0) end. splits. unfold cropNode. goods.
  - constructor. intros k v [].
  - goods.
  - goods.
  - goods; apply text_good; [apply intText_clean|assumption]. change (2 ^ 63) with 9223372036854775808 in *. change (10 ^ 20) with 100000000000000000000. lia.
  - goods.
  - destruct (segmenters_spec d) as [_ SI]. assert (SF : good (Arr (map ofInt (segmenters d)))).
    { apply arr_good, Forall_forall. intros i I0. apply SI in I0. match goal with H : Forall int32 (_ ++ _) |- _ => rewrite Forall_forall in H; apply int_good, H, I0 end. }
    destruct (MpdModel.mgr d) as [m|]; cbn [app].
    + goods; try assumption. apply text_good. unfold MpdModel.mpdPath. repeat apply clean_app; try assumption. vm_compute. intuition discriminate.
    + goods; try assumption. apply text_good. intros [].
  - goods. apply arr_good. match goal with H : Forall _ l |- _ => rename H into F end. rewrite Forall_forall in *. intros [w [k r n f|k]] I0; pose proof (F _ I0) as Q; cbn [fst snd] in Q; unfold streamNode; cbn [fst snd]; splits; goods; apply int_good; unfold int32; lia.
  - goods.
  - goods. apply arr_good. rewrite Forall_forall in *. intros x I0. apply conn_good, P, I0.
Qed.
Lemma node_good id r st : int32 id -> plainState st -> sizedState st -> good (Obj (filterNode id r st)).
Proof.
  intros I0 P Z0. unfold filterNode. apply app_good; [|apply report_good; assumption]. goods.
Qed.
Lemma nodes_good l : Forall (fun x => int32 (fst x) /\ plainState (snd (snd x)) /\ sizedState (snd (snd x))) l -> good (filtersNode l).
Proof. intros F. unfold filtersNode. apply arr_good. eapply Forall_impl; [|exact F]. intros x (A & B & C). apply node_good; assumption. Qed.

(** *** Streams of one connection. *)
Lemma child_app k a b : child k (a ++ b) = match child k a with Some n => Some n | None => child k b end.
Proof. induction a as [|[k' v] a IH]; cbn [app child]; [reflexivity|]. destruct (streq k' k); [reflexivity|exact IH]. Qed.
Lemma stat_child s t k : child k (statNodes s) = None -> child k (statNodes t) = None.
Proof.
  destruct s as [q [[ra rl] rm] [[la ll] lm] [[ja jl] jm] [[da dl] dm]], t as [q' [[ra' rl'] rm'] [[la' ll'] lm'] [[ja' jl'] jm'] [[da' dl'] dm']]. unfold statNodes, object. cbn [ssrc rate loss jitter delay map child].
  repeat match goal with |- context [streq ?a k] => destruct (streq a k); [discriminate|] end. auto.
Qed.
Lemma stat_first s : forall l o i n, (forall k, child k o = child k (statNodes s)) -> nth_error (statList o l) i = Some n -> exists o', n = Obj o' /\ forall k, child k o' = child k (statNodes s).
Proof.
  induction l as [|t l IH]; intros o i n H E; cbn [statList] in E; [destruct i; discriminate|].
  assert (H1 : forall k, child k (o ++ statNodes t) = child k (statNodes s)).
  { intros k. rewrite child_app, H. destruct (child k (statNodes s)) eqn:Q; [reflexivity|]. apply (stat_child s t k Q). }
  destruct i as [|i]; cbn [nth_error] in E; [injection E as <-; eauto|]. apply (IH _ _ _ H1 E).
Qed.
Lemma stat_all s l i n : nth_error (statList [] (s :: l)) i = Some n -> exists o, n = Obj o /\ forall k, get k o = get k (statNodes s).
Proof.
  cbn [statList app]. destruct i as [|i]; cbn [nth_error]; intros E; [injection E as <-; eauto|]. destruct (stat_first s l (statNodes s) i n (fun _ => eq_refl) E) as (o & -> & H). exists o. split; [reflexivity|]. intros k. apply H.
Qed.
Lemma twice_told s t l P : Forall2 (fun n x => exists o, n = Obj o /\ tellsStream o x) (statList [] (s :: t :: l)) P -> False.
Proof.
  cbn [statList app]. intros F. inversion F as [|? ? ? ? _ F1]; subst. inversion F1 as [|? ? ? ? (o & E & T) _]; subst. injection E as <-. destruct T as ((w & T & _) & _). unfold text in T. destruct T as (a & b & E & NA & NB).
  assert (HD : forall x, exists n r, statNodes x = (lit "SSRC", n) :: r) by (intros [q [[ra rl] rm] [[la ll] lm] [[ja jl] jm] [[da dl] dm]]; eexists; eexists; reflexivity).
  destruct (HD s) as (n1 & r1 & E1), (HD t) as (n2 & r2 & E2). rewrite E1, E2 in E. cbn [app] in E. destruct a as [|[k v] a]; cbn [app] in E.
  - injection E as _ E. apply NB. rewrite <- E, map_app. apply in_or_app. right. left. reflexivity.
  - apply NA. left. cbn [fst]. apply (f_equal (fun l => match l with x :: _ => fst x | [] => [] end)) in E. symmetry. exact E.
Qed.

(** *** Changed members. *)
Lemma change_member c k k' n n' : member c k n -> lit k <> lit k' -> member (change k' n' c) k n.
Proof.
  intros (a & b & -> & NA & NB) D. exists (change k' n' a), (change k' n' b). unfold change. rewrite map_app. cbn [map fst]. split; [|].
  - destruct (streq (lit k) (lit k')) eqn:E; [apply streq_true in E; contradiction|reflexivity].
  - assert (K : forall l : fields, map fst (map (fun x => if streq (fst x) (lit k') then (fst x, n') else x) l) = map fst l) by (intros l; rewrite map_map; apply map_ext; intros [x y]; cbn [fst]; destruct (streq x (lit k')); reflexivity).
    rewrite !K. split; assumption.
Qed.
Lemma change_absent c k k' n' : absent c k -> absent (change k' n' c) k.
Proof. unfold absent, change. intros A. rewrite map_map. replace (map (fun x => fst (if streq (fst x) (lit k') then (fst x, n') else x)) c) with (map fst c); [exact A|]. apply map_ext. intros [x y]. cbn [fst]. destruct (streq x (lit k')); reflexivity. Qed.
Lemma dash_ignores v d id r k n : In k ["maxSegments"; "minBufferTime"] -> settled (Dash d) -> plainState (Dash d) -> short (Dash d) ->
  send v (Dash d) "configure" (Obj (change k n (filterNode id r (Dash d)))) = Some (Dash d).
Proof.
  intros K V P SH. pose proof (node_tells id r (Dash d) P Logic.I) as T. cbn [tells] in T. destruct T as (T1 & T2 & (s3 & T3 & I3) & _).
  apply back_dash_as; try assumption.
  - apply change_member; [exact T1|]. repeat (destruct K as [<-|K]; [discriminate|]); destruct K.
  - apply change_member; [exact T2|]. repeat (destruct K as [<-|K]; [discriminate|]); destruct K.
  - exists s3. split; [|exact I3]. apply change_member; [exact T3|]. repeat (destruct K as [<-|K]; [discriminate|]); destruct K.
  - apply change_absent, (absent_node id r (Dash d)); [reflexivity|apply dash_absent; reflexivity].
  - apply change_absent, (absent_node id r (Dash d)); [reflexivity|apply dash_absent; reflexivity].
Qed.
(** *** What is not told. *)
Lemma coding_bit s k a : AenModel.ebit (fst (AenModel.codingConfig s k a)) = AenModel.ebit s.
Proof. unfold AenModel.codingConfig. cbv zeta. repeat match goal with |- context [if ?b then _ else _] => destruct b | |- context [match ?b with _ => _ end] => destruct b end; reflexivity. Qed.
Lemma rate_untold v m c f : settled (VMix m) -> number c "fps" f -> 0 < f -> absent c "width" -> exists m', send v (VMix m) "configure" (Obj c) = Some (VMix m') /\ VidModel.frameTime m' = 1000000 / f /\ report (VMix m') = report (VMix m).
Proof.
  intros (A & B & _) N F W. unfold send. cbn [view]. rewrite (carried_out _ _ _ _ (as_rate m c (Some f) (or_introl W) N)). cbn [obey given]. eexists. split; [reflexivity|]. unfold VidModel.vmStep, VidModel.configure.
  destruct (Z.leb_spec (VidModel.ow m) 0); [lia|]. destruct (Z.ltb_spec 1920 (VidModel.ow m)); [lia|]. destruct (Z.leb_spec (VidModel.oh m) 0); [lia|]. destruct (Z.ltb_spec 1080 (VidModel.oh m)); [lia|]. cbn [orb snd VidModel.frameTime].
  destruct (Z.ltb_spec 0 f); [|lia]. split; reflexivity.
Qed.
Lemma bits_untold v s c b : AenModel.ecodec s = AC_NONE -> number c "bitrate" b -> (forall k, In k ["codec"; "channels"; "sampleRate"] -> absent c k) ->
  exists s', send v (AEnc s) "configure" (Obj c) = Some (AEnc s') /\ AenModel.ebit s' = b /\ report (AEnc s') = report (AEnc s).
Proof.
  intros E N A. unfold send. cbn [view]. rewrite (carried_out _ _ _ _ (as_aencode c None None None (Some b) (A "codec" ltac:(cbn; tauto)) (A "channels" ltac:(cbn; tauto)) (A "sampleRate" ltac:(cbn; tauto)) N)). cbn [obey]. eexists. split; [reflexivity|].
  unfold AenModel.configure. rewrite E. cbv zeta. cbn [AenModel.qCodec AenModel.qECh AenModel.qERate AenModel.qBit AdcModel.dflt]. rewrite coding_bit. split; [reflexivity|]. cbn [report].
  match goal with |- context [AenModel.codingConfig ?x ?y ?z] => destruct (coding_keeps x y z) as (E1 & E2 & E3); rewrite E1, E2, E3; clear E1 E2 E3 end. cbn [AenModel.ecodec AenModel.ech AenModel.erate]. rewrite E. reflexivity.
Qed.
(** *** The other entries of a list. *)
Lemma kept {A} (f f' : Z * A -> node) (m m' : zmap A) c c' k l l' id j o : member c k (Arr (map f m)) -> member c k (Arr l) -> member c' k (Arr (map f' m')) -> member c' k (Arr l') ->
  (forall x o, f x = Obj o -> member o "id" (ofInt (fst x))) -> (forall x o, f' x = Obj o -> member o "id" (ofInt (fst x))) -> (forall x, In x m -> int32 (fst x)) -> (forall x, In x m' -> int32 (fst x)) ->
  (forall x, fst x <> id -> f x = f' x /\ (In x m <-> In x m')) -> number o "id" j -> j <> id -> In (Obj o) l <-> In (Obj o) l'.
Proof.
  intros M1 M2 M3 M4 F F' I1 I2 S0 N D. assert (E1 : l = map f m) by (pose proof (member_fun _ _ _ _ M2 M1) as E; congruence). assert (E2 : l' = map f' m') by (pose proof (member_fun _ _ _ _ M4 M3) as E; congruence).
  split; intros J.
  - destruct (entry f m c k l o j M1 M2 J N F I1) as (v & J1 & E). subst l'. destruct (S0 (j, v) D) as [A1 A2]. rewrite <- E, A1. apply in_map, A2, J1.
  - destruct (entry f' m' c' k l' o j M3 M4 J N F' I2) as (v & J1 & E). subst l. destruct (S0 (j, v) D) as [A1 A2]. rewrite <- E, <- A1. apply in_map, A2, J1.
Qed.
Lemma mset_other {A} (m : zmap A) id v x : msorted m -> fst x <> id -> In x m <-> In x (mset id v m).
Proof.
  intros S0 D. destruct x as [j x]. cbn [fst] in D. split; intros I0.
  - apply mfind_In. rewrite mfind_mset_neq by exact D. apply (In_mfind _ None _ _ S0 I0).
  - apply (In_mfind _ None _ _ (msorted_mset m id v S0)) in I0. rewrite mfind_mset_neq in I0 by exact D. apply mfind_In, I0.
Qed.
Lemma other_gains v n m id g k l l' o j : settled (AMix n m) -> plainState (AMix n m) -> k = "gains" -> member (report (AMix n m)) k (Arr l) -> member (report (obey v (ToMixer (MixModel.EGain id g)) (AMix n m))) k (Arr l') ->
  number o "id" j -> j <> id -> In (Obj o) l <-> In (Obj o) l'.
Proof.
  intros [SM _] (_ & _ & PG) -> M M' N D. cbn [obey MixModel.step snd] in M'. rewrite Forall_forall in PG. assert (I1 : forall x, In x (MixModel.gains m) -> int32 (fst x)) by (intros x J; apply (PG x J)).
  assert (FM : forall x o, gainNode x = Obj o -> member o "id" (ofInt (fst x))) by (intros x o' E; unfold gainNode in E; apply obj_inj in E; subst o'; mem).
  unfold MixModel.setGain in M'. destruct (mmem id (MixModel.gains m)) eqn:EM; cbn [report] in M, M'.
  - cbn [MixModel.gains MixModel.rate MixModel.chans MixModel.master] in M'. refine (kept gainNode gainNode _ _ _ _ "gains" l l' id j o _ M _ M' FM FM I1 (mset_keys _ id _ EM SM I1) _ N D); [mem|mem|]. intros x X. split; [reflexivity|]. apply mset_other; assumption.
  - pose proof (member_fun _ _ _ _ M M') as E. injection E as <-. tauto.
Qed.
Lemma other_channels v m id k0 k l l' o j : settled (VMix m) -> plainState (VMix m) -> k = "channels" -> member (report (VMix m)) k (Arr l) -> member (report (obey v (ToVideoMixer (VidModel.VConf id k0)) (VMix m))) k (Arr l') ->
  number o "id" j -> j <> id -> In (Obj o) l <-> In (Obj o) l'.
Proof.
  intros (_ & _ & SM & _) (_ & PG) -> M M' N D. cbn [obey VidModel.vmStep] in M'. rewrite Forall_forall in PG. assert (I1 : forall x, In x (VidModel.cfg m) -> int32 (fst x)) by (intros x J; apply (PG x J)).
  assert (FM : forall x o, channelNode x = Obj o -> member o "id" (ofInt (fst x))) by (intros x o' E; unfold channelNode in E; apply obj_inj in E; subst o'; mem).
  assert (ST : member (report (VMix m)) "channels" (Arr l') -> In (Obj o) l <-> In (Obj o) l') by (intros M2; pose proof (member_fun _ _ _ _ M M2) as E; injection E as <-; tauto).
  unfold VidModel.configChannel in M'. destruct (mmem id (VidModel.cfg m)) eqn:EM; cbn [negb] in M'; [|apply ST, M']. destruct (_ || _) in M'; [apply ST, M'|]. destruct (_ || _) in M'; [apply ST, M'|]. cbn [snd VidModel.withCfg] in M'. clear ST.
  cbn [report VidModel.withCfg VidModel.cfg VidModel.ow VidModel.oh VidModel.maxCh] in M, M'. refine (kept channelNode channelNode _ _ _ _ "channels" l l' id j o _ M _ M' FM FM I1 (mset_keys _ id k0 EM SM I1) _ N D); [mem|mem|]. intros x X. split; [reflexivity|]. apply mset_other; assumption.
Qed.
Lemma other_crops v s id w h x y d k l l' o j : settled (Split s) -> plainState (Split s) -> k = "crops" -> member (report (Split s)) k (Arr l) -> member (report (obey v (ToSplitter (Crop id w h x y d)) (Split s))) k (Arr l') ->
  number o "id" j -> j <> id -> In (Obj o) l <-> In (Obj o) l'.
Proof.
  intros SM (_ & PG) -> M M' N D. cbn [settled] in SM. cbn [obey] in M'. rewrite Forall_forall in PG. assert (I1 : forall x, In x (VidModel.crops (base s)) -> int32 (fst x)) by (intros e J; specialize (PG e J); inversion PG; assumption).
  assert (FM : forall s x o, cropNode s x = Obj o -> member o "id" (ofInt (fst x))) by (intros s0 e o' E; unfold cropNode in E; apply obj_inj in E; subst o'; mem).
  assert (ST : member (report (Split s)) "crops" (Arr l') -> In (Obj o) l <-> In (Obj o) l') by (intros M2; pose proof (member_fun _ _ _ _ M M2) as E; injection E as <-; tauto).
  unfold setCrop, VidModel.configCrop in M'. cbv zeta in M'. destruct (mfind id (VidModel.crops (base s))) as [k|] eqn:EM; [|apply ST, M']. destruct (_ || _) in M'; [apply ST, M'|]. clear ST. cbn [fst snd] in M'.
  cbn [report base ftime VidModel.crops] in M, M'. assert (MM : mmem id (VidModel.crops (base s)) = true) by (unfold mmem; rewrite EM; reflexivity).
  match type of M' with member (object [_; (_, Arr (map (cropNode ?S) (mset id ?V _)))]) _ _ => refine (kept (cropNode s) (cropNode S) _ _ _ _ "crops" l l' id j o _ M _ M' (FM s) (FM S) I1 (mset_keys _ id V MM SM I1) _ N D); [mem|mem|] end.
  intros e X. split; [|apply mset_other; assumption]. unfold cropNode. cbn [deg]. destruct (Z.eqb_spec (fst e) id); [contradiction|reflexivity].
Qed.
Lemma others_kept v st f a k c o0 id l l' o j : settled st -> plainState st -> view st = Some f -> asks f a c o0 -> In (a, k) [("changeChannelGain", "gains"); ("muteChannel", "gains"); ("configChannel", "channels"); ("configCrop", "crops")] ->
  number c "id" id -> member (report st) k (Arr l) -> member (report (obey v o0 st)) k (Arr l') -> number o "id" j -> j <> id -> In (Obj o) l <-> In (Obj o) l'.
Proof.
  intros S0 P V A K N M M' NO D. destruct st; cbn [view] in V; try discriminate V; injection V as <-; inversion A; subst; repeat (destruct K as [K|K]; [try discriminate K; injection K as <-|]); try (destruct K; fail);
    match goal with H : number c "id" ?i |- _ => rewrite (number_fun _ _ _ _ N H) in * end.
  - eapply other_gains; eauto.
  - eapply other_gains; eauto.
  - eapply other_channels; eauto.
  - eapply other_crops; eauto.
Qed.
