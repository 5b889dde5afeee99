(** Proofs about the reports of state. *)
From Coq Require Import Ascii String Sorting.Sorted.
From Verif Require Import Base ZMap F32 JsonModel NamesModel NamesProps CtlModel CtlSpec CtlProofs FtxModel FtxSpec FtxProofs FtxProps EvtModel EvtSpec EvtProofs RepModel RepSpec.
From Verif Require PipeModel MixModel VidModel AdcModel AenModel EncModel MpdModel.
Local Open Scope string_scope.
Local Open Scope list_scope.
Local Open Scope Z_scope.

(** *** Members of objects made by Add. *)
Lemma obj_member l k n : NoDup (map fst l) -> In (k, n) l -> member (object l) k n.
Proof.
  intros ND I0. apply in_member.
  - unfold object. rewrite map_map. replace (map (fun x => fst (let '(k, n) := x in (lit k, n))) l) with (map lit (map fst l)) by (rewrite map_map; apply map_ext; intros []; reflexivity).
    clear -ND. induction ND as [|x r N ND IH]; cbn [map]; [constructor|]. constructor; [|exact IH]. intros I0. apply in_map_iff in I0. destruct I0 as (y & E & I0). apply lit_inj in E. subst y. auto.
  - unfold object. apply in_map_iff. exists (k, n). auto.
Qed.
Fixpoint distinct (l : list (string * node)) : bool := match l with [] => true | (k, _) :: t => negb (existsb (fun x => String.eqb k (fst x)) t) && distinct t end.
Fixpoint lookup (k : string) (l : list (string * node)) : option node := match l with [] => None | (k', n) :: t => if String.eqb k k' then Some n else lookup k t end.
Lemma obj_look l k n : lookup k l = Some n -> distinct l = true -> member (object l) k n.
Proof.
  intros L D. apply obj_member.
  - clear L. induction l as [|[k' n'] l IH]; cbn [map fst]; [constructor|]. cbn [distinct] in D. apply andb_true_iff in D. destruct D as [D1 D2]. constructor; [|apply IH, D2].
    intros I0. apply in_map_iff in I0. destruct I0 as (x & E & I0). apply negb_true_iff in D1. assert (X : existsb (fun x => String.eqb k' (fst x)) l = true); [|congruence].
    apply existsb_exists. exists x. split; [exact I0|]. apply String.eqb_eq. symmetry. exact E.
  - clear D. induction l as [|[k' n'] l IH]; cbn [lookup] in L; [discriminate|]. destruct (String.eqb k k') eqn:E; [apply String.eqb_eq in E; subst; left; congruence|right; apply IH, L].
Qed.
Lemma cast_id z : int32 z -> cast z = z.
Proof. unfold int32, cast. intros H. rewrite Z.mod_small; [lia|]. change (2 ^ 31) with 2147483648. change (2 ^ 32) with 4294967296. lia. Qed.
Lemma cast_range z : int32 (cast z).
Proof. unfold int32, cast. pose proof (Z.mod_pos_bound (z + 2 ^ 31) (2 ^ 32) eq_refl). change (2 ^ 31) with 2147483648 in *. change (2 ^ 32) with 4294967296 in *. lia. Qed.
Lemma m_number c k z : member c k (ofInt z) -> int32 z -> number c k z.
Proof. intros M I0. exists (intText z). split; [exact M|]. apply intText_is, I0. Qed.
Lemma m_cast c k z : member c k (ofInt (cast z)) -> int32 z -> number c k z.
Proof. intros M I0. rewrite cast_id in M by exact I0. apply m_number; assumption. Qed.
Lemma m_shown c k v : member c k (floatNode v) -> plain v -> shown c k v.
Proof. intros M P. exists (floatNode v). split; [exact M|apply plain_float, P]. Qed.
Lemma m_text c k s : member c k (ofText s) -> clean s -> text c k s.
Proof. intros M C. unfold text. unfold ofText in M. rewrite unescape_plain in M by exact C. exact M. Qed.
Lemma m_flag c k b : member c k (ofBool b) -> flag c k b.
Proof. intros M. exact M. Qed.
Lemma m_ints c k l : member c k (Arr (map ofInt l)) -> Forall int32 l -> numbers c k l.
Proof.
  intros M F. exists (map ofInt l). split; [exact M|]. clear M. induction F as [|z r I0 F IH]; cbn [map]; constructor; [|exact IH]. exists (intText z). split; [reflexivity|apply intText_is, I0].
Qed.
Lemma m_list {A} (P : fields -> A -> Prop) (f : A -> node) c k l : member c k (Arr (map f l)) -> Forall (fun x => exists o, f x = Obj o /\ P o x) l -> listing P c k l.
Proof. intros M F. exists (map f l). split; [exact M|]. clear M. induction F as [|x r (o & E & H) F IH]; cbn [map]; constructor; [|exact IH]. exists o. auto. Qed.
Lemma m_digits c k z : member c k (ofText (intText z)) -> - 10 ^ 20 < z < 10 ^ 20 -> digitsText c k z.
Proof.
  intros M B. unfold intText in M. destruct (z <? 0) eqn:E.
  - apply Z.ltb_lt in E. destruct (decimal_digits 20 (- z)) as [D N]; [change (10 ^ Z.of_nat 20) with (10 ^ 20); lia|]. exists ("-"%char :: decimal 20 (- z)). split.
    + apply m_text; [exact M|]. intros [X|X]; [discriminate|]. exact (digits_no_escape _ _ D X).
    + right. exists (decimal 20 (- z)). split; [reflexivity|]. split; [apply N; lia|exact D].
  - apply Z.ltb_ge in E. destruct (decimal_digits 20 z) as [D N]; [change (10 ^ Z.of_nat 20) with (10 ^ 20); lia|]. exists (decimal 20 z). split.
    + apply m_text; [exact M|]. apply (digits_no_escape _ _ D).
    + left. split; [apply N; lia|exact D].
Qed.
Lemma m_decimal c k z : member c k (ofText (decimal 20 z)) -> 0 <= z < 10 ^ 20 -> digitsText c k z.
Proof. intros M B. apply m_digits; [|lia]. unfold intText. replace (z <? 0) with false by (symmetry; apply Z.ltb_ge; lia). exact M. Qed.
Lemma m_codec c k a : member c k (texts (getAudioCodecAsString a)) -> named getAudioCodecAsString AC_NONE c k a.
Proof. intros M. exists (lit (getAudioCodecAsString a)). split; [apply m_text; [exact M|destruct a; vm_compute; intuition discriminate]|]. apply (names_from _ _ _ _ _ acd_dec audio_codec_names). destruct a; reflexivity. Qed.
Lemma m_fmt c k a : member c k (texts (getSampleFormatAsString a)) -> named getSampleFormatAsString S_NONE c k a.
Proof. intros M. exists (lit (getSampleFormatAsString a)). split; [apply m_text; [exact M|destruct a; vm_compute; intuition discriminate]|]. apply (names_from _ _ _ _ _ smp_dec sample_format_names). destruct a; reflexivity. Qed.
Lemma vcd_dec (x y : VCodecType) : {x = y} + {x <> y}. Proof. decide equality. Qed.
Lemma m_vcodec c k a : member c k (texts (getVideoCodecAsString a)) -> named getVideoCodecAsString VC_NONE c k a.
Proof. intros M. exists (lit (getVideoCodecAsString a)). split; [apply m_text; [exact M|destruct a; vm_compute; intuition discriminate]|]. apply (names_from _ _ _ _ _ vcd_dec video_codec_names). destruct a; reflexivity. Qed.
Lemma toF_plain v : 0 <= v < 1000000 -> toF v = v * one /\ plain (v * one).
Proof.
  intros B. assert (F : isFloat (v * one)).
  { exists v, 149. split; [lia|]. split; [|reflexivity]. change (2 ^ 24) with 16777216. lia. }
  assert (E : toF v = v * one) by (apply fl_fix, F). split; [exact E|]. destruct (Z.eq_dec v 0) as [->|N]; [left; reflexivity|]. right. split.
  - exists v, 0. split; [lia|]. unfold ofDec. change (up 0) with 1. change (dn 0) with 1. rewrite Z.mul_1_r. symmetry. exact E.
  - unfold ordinary. rewrite Z.abs_eq by (apply Z.mul_nonneg_nonneg; [lia|unfold one; lia]). split.
    + apply Z.le_trans with (1 * one); [vm_compute; discriminate|]. apply Z.mul_le_mono_nonneg_r; [vm_compute; discriminate|lia].
    + apply Z.le_trans with (1000000 * one); [apply Z.mul_le_mono_nonneg_r; [vm_compute; discriminate|lia]|vm_compute; discriminate].
Qed.
Lemma m_rate c k v : member c k (floatNode (toF v)) -> 0 <= v -> v < 1000000 -> shown c k (v * F32.one).
Proof. intros M A B. destruct (toF_plain v (conj A B)) as [E P]. rewrite E in M. apply m_shown; assumption. Qed.

(** *** The report tells the state. *)
Local Opaque ofInt floatNode ofText ofBool cast toF decimal intText F32.one.
Ltac mem := solve [apply obj_look; [reflexivity|reflexivity]].
Ltac splits := repeat match goal with H : Forall _ (_ :: _) |- _ => inversion H; clear H; subst | H : Forall _ [] |- _ => clear H | H : _ /\ _ |- _ => destruct H end.
Ltac one := first [apply m_rate; [mem|assumption|assumption] | apply m_cast; [mem|assumption] | apply m_number; [mem|assumption] | apply m_shown; [mem|assumption] | apply m_codec; mem | apply m_fmt; mem | apply m_vcodec; mem | apply m_text; [mem|assumption] | apply m_flag; mem].
Ltac ones := repeat match goal with |- _ /\ _ => split end; try one.
Lemma gain_told x : int32 (fst x) /\ plain (snd x) -> exists o, gainNode x = Obj o /\ tellsGain o x.
Proof. intros H. eexists. split; [reflexivity|]. unfold tellsGain. splits. ones. Qed.
Lemma channel_told x : int32 (fst x) /\ int32 (VidModel.clayer (snd x)) /\ Forall plain [VidModel.cw (snd x); VidModel.ch (snd x); VidModel.cx (snd x); VidModel.cy (snd x); VidModel.cop (snd x)] ->
  exists o, channelNode x = Obj o /\ tellsChannel o x.
Proof. intros H. eexists. split; [reflexivity|]. unfold tellsChannel. cbv zeta. splits. ones. Qed.
Lemma crop_told s x : Forall int32 [fst x; VidModel.kw (snd x); VidModel.kh (snd x); VidModel.kx (snd x); VidModel.ky (snd x); deg s (fst x)] ->
  exists o, cropNode s x = Obj o /\ tellsCrop (deg s) o x.
Proof. intros H. eexists. split; [reflexivity|]. unfold tellsCrop. cbv zeta. splits. ones. Qed.
Lemma stream_told s : plainStat s -> tellsStream (statNodes s) s.
Proof.
  destruct s as [q [[ra rl] rm] [[la ll] lm] [[ja jl] jm] [[da dl] dm]]. unfold plainStat, tellsStream, three_ok, three, statNodes. cbn [ssrc rate loss jitter delay fst snd]. intros H. splits.
  repeat match goal with |- _ /\ _ => split end.
  2-13: one.
  apply m_decimal; [mem|lia].
Qed.
Lemma conn_told c : plainConn c -> (List.length (streams c) <= 1)%nat -> exists o, connNode c = Obj o /\ tellsConn o c.
Proof.
  intros (W & S0 & R) L. eexists. split; [reflexivity|]. unfold tellsConn. destruct (who c) as [n u|ip p] eqn:EW; cbn [tellsPeer]; splits.
  - split; [ones|]. split; [apply m_ints; [mem|assumption]|]. exists (statList [] (streams c)). split; [mem|].
    destruct (streams c) as [|s [|]]; [constructor| |cbn in L; lia]. inversion S0; subst. cbn [statList app]. constructor; [|constructor]. eexists. split; [reflexivity|apply stream_told; assumption].
  - split; [split; [one|apply m_decimal; [mem|lia]]|]. split; [apply m_ints; [mem|assumption]|]. exists (statList [] (streams c)). split; [mem|].
    destruct (streams c) as [|s [|]]; [constructor| |cbn in L; lia]. inversion S0; subst. cbn [statList app]. constructor; [|constructor]. eexists. split; [reflexivity|apply stream_told; assumption].
Qed.
Lemma keys_fold l : forall m, msorted m -> msorted (fold_left (fun m k => mset k tt m) l m) /\ forall i, mfind i (fold_left (fun m k => mset k tt m) l m) <> None <-> In i l \/ mfind i m <> None.
Proof.
  induction l as [|k l IH]; intros m S0; cbn [fold_left In]; [split; [exact S0|tauto]|]. destruct (IH (mset k tt m) (msorted_mset m k tt S0)) as [A B]. split; [exact A|].
  intros i. rewrite B, mfind_mset. destruct (i =? k) eqn:E; [apply Z.eqb_eq in E; subst; intuition congruence|apply Z.eqb_neq in E; intuition congruence].
Qed.
Lemma sorted_keys {A} (m : zmap A) : forall lo, sorted_from lo m -> Sorted Z.lt (mkeys m).
Proof.
  unfold mkeys. induction m as [|[k v] m IH]; intros lo S0; cbn [map fst]; [constructor|]. cbn [sorted_from] in S0. destruct S0 as [_ S0]. constructor; [apply (IH _ S0)|].
  destruct m as [|[k2 v2] m]; cbn [map fst]; constructor. cbn [sorted_from] in S0. tauto.
Qed.
Lemma segmenters_spec d : Sorted Z.lt (segmenters d) /\ forall i, In i (segmenters d) <-> In i (mkeys (MpdModel.vslots d) ++ mkeys (MpdModel.aslots d)).
Proof.
  unfold segmenters. destruct (keys_fold (mkeys (MpdModel.vslots d) ++ mkeys (MpdModel.aslots d)) [] Logic.I) as [A B]. split; [apply (sorted_keys _ None A)|].
  intros i. rewrite mkeys_in, B. cbn [mfind]. intuition congruence.
Qed.
Lemma mmem_in {A} (m : zmap A) i : mmem i m = true <-> In i (mkeys m).
Proof. rewrite mkeys_in. unfold mmem. destruct (mfind i m); intuition congruence. Qed.
Lemma clean_app a b : clean a -> clean b -> clean (a ++ b).
Proof. unfold clean. intros A B I0. apply in_app_iff in I0. tauto. Qed.
Lemma report_tells st : plainState st -> oneStream st -> tells st (report st).
Proof.
  destruct st; cbn [plainState oneStream tells report]; intros P O1; cbv zeta in *; splits.
  - ones; [apply m_text; [mem|vm_compute; intuition discriminate]|]. apply (m_list _ gainNode); [mem|]. eapply Forall_impl; [|eassumption]. intros x H9. apply gain_told, H9.
  - ones. apply (m_list _ channelNode); [mem|]. eapply Forall_impl; [|eassumption]. intros x H9. apply channel_told, H9.
  - ones. apply (m_list _ (cropNode s)); [mem|]. eapply Forall_impl; [|eassumption]. intros x H9. apply crop_told, H9.
  - exact Logic.I.
  - ones.
  - ones.
  - ones. apply m_digits; [mem|]. change (2 ^ 63) with 9223372036854775808 in *. change (10 ^ 20) with 100000000000000000000. lia.
  - eexists. split; [mem|]. ones.
  - destruct (segmenters_spec d) as [SS SI]. assert (SF : Forall int32 (segmenters d)).
    { apply Forall_forall. intros i I0. apply SI in I0. match goal with H : Forall int32 (_ ++ _) |- _ => rewrite Forall_forall in H; apply H, I0 end. }
    destruct (MpdModel.mgr d) as [m|] eqn:EM.
    + match goal with H : forall m, Some _ = Some m -> _ |- _ => specialize (H _ eq_refl) end. splits. ones.
      * intros m0 E0. inversion E0; subst m0. ones. apply m_text; [mem|]. repeat apply clean_app; try assumption. vm_compute. intuition discriminate.
      * exists (segmenters d). split; [apply m_ints; [mem|exact SF]|]. split; [exact SS|]. intros i. rewrite SI, in_app_iff, <- !mmem_in. reflexivity.
    + ones; [intros m0 E0; discriminate|]. exists (segmenters d). split; [apply m_ints; [mem|exact SF]|]. split; [exact SS|]. intros i. rewrite SI, in_app_iff, <- !mmem_in. reflexivity.
  - ones. apply (m_list _ streamNode); [mem|]. eapply Forall_impl; [|eassumption]. intros [w [k r n f|k]]; cbn [fst snd]; intros H9; splits; eexists; (split; [reflexivity|]); cbn [fst snd]; ones.
    all: apply m_number; [mem|unfold int32; lia].
  - ones.
  - apply (m_list _ (fun x => connNode (snd x))); [mem|]. rewrite Forall_forall in *. intros x I0. apply conn_told; [apply P, I0|apply O1, I0].
Qed.

(** *** With the members "id", "type" and "role" before it. *)
Definition head (id : Z) (r : FilterRole) (t : PipeModel.ftype) : fields := object [("id", ofInt id); ("type", texts (getFilterTypeAsString t)); ("role", texts (getRoleAsString r))].
Definition free (k : string) : bool := negb (existsb (String.eqb k) ["id"; "type"; "role"]).
Lemma free_head k id r t : free k = true -> ~ In (lit k) (map fst (head id r t)).
Proof.
  intros F. change (map fst (head id r t)) with (map lit ["id"; "type"; "role"]). intros I0. apply in_map_iff in I0. destruct I0 as (y & E & I0). apply lit_inj in E. subst y.
  unfold free in F. apply negb_true_iff in F. assert (X : existsb (String.eqb k) ["id"; "type"; "role"] = true); [|congruence]. apply existsb_exists. exists k. split; [exact I0|apply String.eqb_refl].
Qed.
Lemma pre_member c k n id r t : member c k n -> free k = true -> member (head id r t ++ c) k n.
Proof.
  intros (a & b & -> & NA & NB) F. exists (head id r t ++ a), b. split; [rewrite <- app_assoc; reflexivity|]. split; [|exact NB]. rewrite map_app, in_app_iff. intros [X|X]; [|auto]. exact (free_head k id r t F X).
Qed.
Lemma pre_number c k z id r t : number c k z -> free k = true -> number (head id r t ++ c) k z.
Proof. intros (s & M & I0) F. exists s. split; [apply pre_member; assumption|exact I0]. Qed.
Lemma pre_text c k z id r t : text c k z -> free k = true -> text (head id r t ++ c) k z.
Proof. intros M F. apply pre_member; assumption. Qed.
Lemma pre_flag c k z id r t : flag c k z -> free k = true -> flag (head id r t ++ c) k z.
Proof. intros M F. apply pre_member; assumption. Qed.
Lemma pre_shown c k z id r t : shown c k z -> free k = true -> shown (head id r t ++ c) k z.
Proof. intros (s & M & I0) F. exists s. split; [apply pre_member; assumption|exact I0]. Qed.
Lemma pre_numbers c k z id r t : numbers c k z -> free k = true -> numbers (head id r t ++ c) k z.
Proof. intros (s & M & I0) F. exists s. split; [apply pre_member; assumption|exact I0]. Qed.
Lemma pre_listing {A} (P : fields -> A -> Prop) c k z id r t : listing P c k z -> free k = true -> listing P (head id r t ++ c) k z.
Proof. intros (s & M & I0) F. exists s. split; [apply pre_member; assumption|exact I0]. Qed.
Lemma pre_inside P c k id r t : inside c k P -> free k = true -> inside (head id r t ++ c) k P.
Proof. intros (s & M & I0) F. exists s. split; [apply pre_member; assumption|exact I0]. Qed.
Lemma pre_digits c k z id r t : digitsText c k z -> free k = true -> digitsText (head id r t ++ c) k z.
Proof. intros (s & M & I0) F. exists s. split; [apply pre_member; assumption|exact I0]. Qed.
Lemma pre_named {E} (show : E -> string) none c k z id r t : named show none c k z -> free k = true -> named show none (head id r t ++ c) k z.
Proof. intros (s & M & I0) F. exists s. split; [apply pre_member; assumption|exact I0]. Qed.
Ltac pres1 := first [apply pre_number | apply pre_text | apply pre_flag | apply pre_shown | apply pre_numbers | apply pre_listing | apply pre_inside | apply pre_digits | apply pre_named]; [eassumption|reflexivity].
Lemma pre_tells st c id r t : tells st c -> tells st (head id r t ++ c).
Proof.
  destruct st; cbn [tells]; intros T; cbv zeta in *; repeat match goal with H : _ /\ _ |- _ => destruct H | H : exists _, _ |- _ => destruct H end; repeat match goal with |- _ /\ _ => split end; try exact Logic.I; try pres1.
  - intros m E. match goal with H : forall m, _ = Some m -> _ |- _ => destruct (H m E) as (A & B & C) end. repeat match goal with |- _ /\ _ => split end; pres1.
  - eexists. split; [pres1|]. split; assumption.
Qed.
Lemma head_tells st c id r : int32 id -> (forall k, In k ["id"; "type"; "role"] -> absent c k) ->
  number (head id r (typeOf st) ++ c) "id" id /\ text (head id r (typeOf st) ++ c) "type" (lit (getFilterTypeAsString (typeOf st))) /\ text (head id r (typeOf st) ++ c) "role" (lit (getRoleAsString r)).
Proof.
  intros I0 N.
  assert (AP : forall k n, In k ["id"; "type"; "role"] -> member (head id r (typeOf st)) k n -> member (head id r (typeOf st) ++ c) k n).
  { intros k n K (a & b & E & NA & NB). exists a, (b ++ c). rewrite E, <- app_assoc. split; [reflexivity|]. split; [exact NA|]. rewrite map_app, in_app_iff. intros [X|X]; [auto|exact (N k K X)]. }
  split; [|split].
  - destruct (m_number (head id r (typeOf st)) "id" id) as (s & M & Q); [mem|exact I0|]. exists s. split; [apply AP; [left; reflexivity|exact M]|exact Q].
  - apply AP; [right; left; reflexivity|]. apply m_text; [mem|]. destruct st; vm_compute; intuition discriminate.
  - apply AP; [right; right; left; reflexivity|]. apply m_text; [mem|]. destruct r; vm_compute; intuition discriminate.
Qed.
Lemma absent_obj l k : existsb (fun x => String.eqb k (fst x)) l = false -> absent (object l) k.
Proof.
  intros E I0. unfold object in I0. rewrite map_map in I0. apply in_map_iff in I0. destruct I0 as ([k' n] & Q & I0). cbn [fst] in Q. apply lit_inj in Q. subst k'.
  assert (X : existsb (fun x => String.eqb k (fst x)) l = true); [|congruence]. apply existsb_exists. exists (k, n). split; [exact I0|apply String.eqb_refl].
Qed.
Lemma report_free st k : In k ["id"; "type"; "role"] -> absent (report st) k.
Proof.
  intros K. destruct st; cbn [report]; cbv zeta; try (apply absent_obj; repeat (destruct K as [<-|K]; [reflexivity|]); destruct K; fail).
  - intros [].
  - destruct (MpdModel.mgr d); apply absent_obj; repeat (destruct K as [<-|K]; [reflexivity|]); destruct K.
Qed.
