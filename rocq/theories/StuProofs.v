From Coq Require Import ZArith QArith List Bool Lia.
From Verif Require Import ZMap StuModel StuSpec.
Import ListNotations.
Local Open Scope list_scope.
Local Open Scope Z_scope.

(* ** Numbers *)
Definition recvOf (l : list (nat * stream)) : list nat := map fst (filter (fun p => starts (snd p)) l).
Lemma recvOf_app a b : recvOf (a ++ b) = recvOf a ++ recvOf b.
Proof. unfold recvOf. rewrite filter_app, map_app. reflexivity. Qed.
Lemma numberedFrom l : forall n, recvOf (combine (seq n (List.length l)) l) = receivableFrom n l.
Proof.
  induction l as [|x l IH]; intros n; [reflexivity|]. cbn [List.length seq combine receivableFrom]. unfold recvOf. cbn [filter snd].
  destruct (starts x); cbn [map fst]; [f_equal|]; apply (IH (S n)).
Qed.
Lemma numbered_recv l : recvOf (numbered l) = receivable l.
Proof. apply numberedFrom. Qed.
Lemma numbered_nthFrom (l : list stream) : forall n i x, In (i, x) (combine (seq n (List.length l)) l) -> (n <= i)%nat /\ nth_error l (i - n) = Some x.
Proof.
  induction l as [|y l IH]; intros n i x H; [destruct H|]. cbn [List.length seq combine] in H. destruct H as [H|H].
  - injection H as <- <-. split; [lia|]. rewrite Nat.sub_diag. reflexivity.
  - destruct (IH (S n) i x H) as (A & B). split; [lia|]. replace (i - n)%nat with (S (i - S n)) by lia. exact B.
Qed.
Lemma numbered_nth l i x : In (i, x) (numbered l) -> nth_error l i = Some x.
Proof. intros H. destruct (numbered_nthFrom l 0 i x H) as (_ & E). rewrite Nat.sub_0_r in E. exact E. Qed.
Lemma numbered_fst l : map fst (numbered l) = seq 0 (List.length l).
Proof.
  unfold numbered. generalize 0%nat. induction l as [|x l IH]; intros n; [reflexivity|]. cbn [List.length seq combine map fst]. f_equal. apply IH.
Qed.
Lemma numbered_nodup l : NoDup (map fst (numbered l)).
Proof. rewrite numbered_fst. apply seq_NoDup. Qed.

(* ** What was granted *)
Definition ear (m : list msg) : option nat * list nat := fold_left heard m (None, []).
Lemma ear_snoc m x : ear (m ++ [x]) = heard (ear m) x.
Proof. unfold ear. rewrite fold_left_app. reflexivity. Qed.
Lemma granted_ear m : granted m = snd (ear m).
Proof. reflexivity. Qed.

(* ** The next stream *)
Lemma next_spec c rest :
  (exists d i x r, rest = d ++ (i, x) :: r /\ recvOf d = [] /\ starts x = true /\ next c rest = to_ (PSetup i x r) (say [Ask (Setup i)] c)) \/
  (recvOf rest = [] /\ next c rest = to_ PPlay (say [Ask Play] c)).
Proof.
  induction rest as [|[i x] r IH]; [right; split; reflexivity|]. cbn [next]. destruct (starts x) eqn:S.
  - left. exists [], i, x, r. repeat split; auto.
  - destruct IH as [(d & j & y & r' & -> & D & Y & E)|(D & E)].
    + left. exists ((i, x) :: d), j, y, r'. split; [reflexivity|]. split; [unfold recvOf; cbn [filter snd]; rewrite S; exact D|]. auto.
    + right. split; [unfold recvOf; cbn [filter snd]; rewrite S; exact D|exact E].
Qed.

(* ** What is said *)
Lemma exchanges_snoc is answers i b : List.length answers = List.length is -> exchanges (is ++ [i]) (answers ++ [b]) = exchanges is answers ++ [Ask (Setup i); Answer b].
Proof.
  revert answers. induction is as [|j is IH]; intros [|a answers] L; cbn in L; try discriminate; [reflexivity|].
  cbn [app]. unfold exchanges in *. cbn [combine flat_map fst snd app]. f_equal. f_equal. apply IH. lia.
Qed.
Lemma exchanges_cut is answers more : List.length answers = List.length is -> exists r, exchanges (is ++ more) (answers ++ repeat false (List.length more)) = exchanges is answers ++ r.
Proof.
  revert answers. induction is as [|j is IH]; intros [|a answers] L; cbn in L; try discriminate; [eexists; reflexivity|].
  destruct (IH answers) as (r & E); [lia|]. exists r. cbn [app]. unfold exchanges in *. cbn [combine flat_map fst snd app]. rewrite E. reflexivity.
Qed.
Definition hdr : list msg := [Ask Describe; Answer true].
Definition TI (c : conv) : Prop :=
  match ph c with
  | PDescribe => streams c = [] /\ log c = [Ask Describe] /\ alarm c = false
  | PSetup i x rest => exists d a, numbered (streams c) = d ++ (i, x) :: rest /\ starts x = true /\ List.length a = List.length (recvOf d) /\
      log c = (hdr ++ exchanges (recvOf d) a) ++ [Ask (Setup i)] /\ alarm c = false
  | PPlay => exists a, List.length a = List.length (receivable (streams c)) /\ log c = (hdr ++ exchanges (receivable (streams c)) a) ++ [Ask Play] /\ alarm c = false
  | PPlaying _ => exists a n, List.length a = List.length (receivable (streams c)) /\ log c = whole (streams c) a true ++ repeat (Ask KeepAlive) n
  | PClosed => proper (streams c) (log c)
  | PGone => proper (streams c) (log c) /\ alarm c = false
  end.
Lemma TI_begun c : TI c -> match ph c with PSetup _ _ _ | PPlay | PPlaying _ =>
  exists answers played pre n, List.length answers = List.length (receivable (streams c)) /\ log c = pre ++ repeat (Ask KeepAlive) n /\
    prefix pre (whole (streams c) answers played) /\ (n <> 0%nat -> pre = whole (streams c) answers true) | _ => True end.
Proof.
  unfold TI. destruct (ph c) as [|i x rest| |o| |]; auto.
  - intros (d & a & N & S & L & E & _).
    assert (RC : receivable (streams c) = (recvOf d ++ [i]) ++ recvOf rest).
    { rewrite <- numbered_recv, N, recvOf_app. unfold recvOf at 2. cbn [filter snd]. rewrite S. cbn [map fst]. rewrite <- app_assoc. reflexivity. }
    exists ((a ++ [false]) ++ repeat false (List.length (recvOf rest))), false, (log c), 0%nat. split; [|split; [|split]].
    + rewrite RC, !app_length, repeat_length. cbn. lia.
    + cbn. rewrite app_nil_r. reflexivity.
    + destruct (exchanges_cut (recvOf d ++ [i]) (a ++ [false]) (recvOf rest)) as (r & X); [rewrite !app_length; cbn; lia|].
      exists ([Answer false] ++ r ++ [Ask Play; Answer false]). unfold whole. rewrite RC, X, exchanges_snoc by exact L. rewrite E. unfold hdr. rewrite <- !app_assoc. reflexivity.
    + congruence.
  - intros (a & L & E & _). exists a, false, (log c), 0%nat. split; [exact L|]. split; [cbn; rewrite app_nil_r; reflexivity|]. split; [|congruence].
    exists [Answer false]. rewrite E. unfold whole, hdr. rewrite <- !app_assoc. reflexivity.
  - intros (a & n & L & E). exists a, true, (whole (streams c) a true), n. split; [exact L|]. split; [exact E|]. split; [exists []; rewrite app_nil_r; reflexivity|auto].
Qed.
Lemma TI_proper c : TI c -> proper (streams c) (log c).
Proof.
  intros T. pose proof (TI_begun c T) as B. unfold TI in T. destruct (ph c) as [|i x rest| |o| |].
  - destruct T as (S & L & _). exists [], true, [Ask Describe], 0%nat, []. rewrite S, L. split; [reflexivity|]. split; [reflexivity|]. split; [|split; [congruence|auto]].
    left. exists [Answer true; Ask Play; Answer true]. reflexivity.
  - destruct B as (a & p & pre & n & L & E & P & N). exists a, p, pre, n, []. rewrite app_nil_r. auto 8.
  - destruct B as (a & p & pre & n & L & E & P & N). exists a, p, pre, n, []. rewrite app_nil_r. auto 8.
  - destruct B as (a & p & pre & n & L & E & P & N). exists a, p, pre, n, []. rewrite app_nil_r. auto 8.
  - exact T.
  - apply T.
Qed.
(* The next stream, after some of them. *)
Lemma next_TI c d rest a : numbered (streams c) = d ++ rest -> List.length a = List.length (recvOf d) -> log c = hdr ++ exchanges (recvOf d) a -> alarm c = false -> TI (next c rest).
Proof.
  intros N L E A. destruct (next_spec c rest) as [(d2 & i & x & r & -> & D & S & X)|(D & X)]; rewrite X; unfold TI; cbn [to_ say ph streams log alarm].
  - exists (d ++ d2), a. rewrite recvOf_app, D, app_nil_r. rewrite E. split; [rewrite N, app_assoc; reflexivity|]. auto.
  - exists a. rewrite <- numbered_recv, N, recvOf_app, D, app_nil_r, E. auto.
Qed.
Lemma next_fields c rest : streams (next c rest) = streams c /\ sinks (next c rest) = sinks c /\ orphans (next c rest) = orphans c /\ dead (next c rest) = dead c /\
  stats (next c rest) = stats c /\ keep (next c rest) = keep c /\ alarm (next c rest) = alarm c /\ dur (next c rest) = dur c /\ ph (next c rest) <> PGone.
Proof. induction rest as [|[i x] r IH]; cbn [next]; [repeat split; discriminate|]. destruct (starts x); [repeat split; discriminate|exact IH]. Qed.
Lemma numbered_nil l : numbered l = [] -> l = [].
Proof. destruct l; [reflexivity|discriminate]. Qed.

(* ** Removing changes little of a session *)
Definition alike (c c' : conv) : Prop := ph c' = ph c /\ streams c' = streams c /\ dur c' = dur c /\ log c' = log c /\ sinks c' = sinks c /\ orphans c' = orphans c /\ keep c' = keep c /\ alarm c' = alarm c.
Lemma alike_refl c : alike c c.
Proof. repeat split. Qed.
Lemma alike_trans a b c : alike a b -> alike b c -> alike a c.
Proof. unfold alike. intros (A & B & C & D & E & F & G & H) (A' & B' & C' & D' & E' & F' & G' & H'). repeat split; congruence. Qed.
Lemma alike_TI c c' : alike c c' -> TI c -> TI c'.
Proof. intros (A & B & C & D & E & F & G & H) T. unfold TI in *. rewrite A, B, D, H. exact T. Qed.
Definition alikeAll (s s' : rx) : Prop := forall k, match mfind k (convs s), mfind k (convs s') with Some c, Some c' => alike c c' | None, None => True | _, _ => False end.
Lemma alikeAll_refl s : alikeAll s s.
Proof. intros k. destruct (mfind k (convs s)); [apply alike_refl|exact I]. Qed.
Lemma alikeAll_trans a b c : alikeAll a b -> alikeAll b c -> alikeAll a c.
Proof.
  intros H1 H2 k. specialize (H1 k). specialize (H2 k). destruct (mfind k (convs a)), (mfind k (convs b)), (mfind k (convs c)); auto; try contradiction. eapply alike_trans; eauto.
Qed.
Lemma alikeAll_set s k c c' r : mfind k (convs s) = Some c -> alike c c' -> alikeAll s (mkRx r (mset k c' (convs s))).
Proof.
  intros F A j. cbn [convs]. rewrite mfind_mset. destruct (Z.eqb_spec j k) as [->|N]; [rewrite F; exact A|]. destruct (mfind j (convs s)); [apply alike_refl|exact I].
Qed.
Lemma removeAll_alike sid l : forall s s', removeAll sid l s = Some s' -> alikeAll s s'.
Proof.
  induction l as [|x r IH]; intros s s' H; [injection H as <-; apply alikeAll_refl|]. cbn [removeAll] in H.
  destruct (mfind (sport x) (reg s)) as [[o j]|]; [|apply IH; exact H].
  destruct (mfind o (convs s)) as [co|] eqn:FO; [|discriminate]. destruct (closable co j); [|discriminate].
  eapply alikeAll_trans; [|apply (IH _ _ H)]. clear H IH.
  set (co1 := mkConv (ph co) (streams co) (dur co) (log co) (sinks co) (orphans co) (j :: dead co) (stats co) (keep co) (alarm co)).
  assert (A1 : alikeAll s (mkRx (mdel (sport x) (reg s)) (mset o co1 (convs s)))) by (eapply alikeAll_set; [exact FO|repeat split]).
  destruct (mfind sid _) as [c|] eqn:FS; [|exact A1]. eapply alikeAll_trans; [exact A1|]. cbn [reg convs] in *.
  eapply (alikeAll_set (mkRx (mdel (sport x) (reg s)) (mset o co1 (convs s)))); [exact FS|repeat split].
Qed.

Lemma fine_inj a b : Fine a = Fine b -> a = b.
Proof. congruence. Qed.
(* ** Every conversation *)
Definition TIall (s : rx) : Prop := forall k c, session s k c -> TI c.
Lemma TIall_set s k c r : TIall s -> TI c -> TIall (mkRx r (mset k c (convs s))).
Proof. intros H T j c' F. unfold session in F. cbn [convs] in F. rewrite mfind_mset in F. destruct (j =? k); [injection F as <-; exact T|exact (H _ _ F)]. Qed.
Lemma shutdown_some c c' : shutdown c = Some c' -> c' = mkConv PClosed (streams c) (dur c) (log c ++ match sinks c with [] => [] | _ => [Ask Teardown] end) [] (orphans c) (dead c) (stats c) (keep c) (alarm c).
Proof. unfold shutdown. destruct (forallb _ _); [intros H; injection H as <-; reflexivity|discriminate]. Qed.
Lemma shutdown_TI c c' : (exists answers played pre n, List.length answers = List.length (receivable (streams c)) /\ log c = pre ++ repeat (Ask KeepAlive) n /\
    (prefix pre (whole (streams c) answers played) \/ pre = [Ask Describe; Answer false]) /\ (n <> 0%nat -> pre = whole (streams c) answers true)) -> shutdown c = Some c' -> TI c'.
Proof.
  intros (a & p & pre & n & L & E & P & N) H. rewrite (shutdown_some _ _ H). unfold TI. cbn [ph streams log]. rewrite E.
  exists a, p, pre, n, (match sinks c with [] => [] | _ => [Ask Teardown] end). split; [exact L|]. split; [rewrite <- app_assoc; reflexivity|]. split; [exact P|]. split; [exact N|]. destruct (sinks c); auto.
Qed.
Lemma step_TI s x s' : TIall s -> step s x = Fine s' -> TIall s'.
Proof.
  intros H E. destruct x as [sid e]. unfold step in E. destruct (mfind sid (convs s)) as [c|] eqn:F.
  2:{ destruct e; try (injection E as <-; exact H). cbn [update] in E. injection E as <-. apply TIall_set; [exact H|]. repeat split. }
  pose proof (H sid c F) as T. pose proof (TI_begun c T) as TB.
  destruct e as [k|d|ok|ok| | |i|].
  - injection E as <-. exact H.
  - destruct (ph c) as [|i x rest| |o| |] eqn:P; try (injection E as <-; exact H). unfold TI in T. rewrite P in T. destruct T as (S & L & A).
    unfold described in E. destruct d as [[[l abs] t]|].
    + destruct l as [|y l].
      * match type of E with update _ (shutdown ?q) _ = _ => set (c1 := q) in *; destruct (shutdown c1) as [c'|] eqn:SD; [|discriminate] end.
        injection E as <-. apply TIall_set; [exact H|]. eapply shutdown_TI; [|exact SD]. exists [], true, [Ask Describe; Answer true], 0%nat.
        unfold c1. cbn [streams log]. rewrite L. split; [reflexivity|]. split; [reflexivity|]. split; [|congruence]. left. exists [Ask Play; Answer true]. reflexivity.
      * unfold update in E. apply fine_inj in E. subst s'. apply TIall_set; [exact H|]. apply next_TI with (d := []) (a := []); cbn [streams log alarm]; auto. rewrite L. reflexivity.
    + destruct (shutdown (say [Answer false] c)) as [c'|] eqn:SD; [|discriminate]. injection E as <-. apply TIall_set; [exact H|]. eapply shutdown_TI; [|exact SD].
      exists [], true, [Ask Describe; Answer false], 0%nat. cbn [say streams log]. rewrite L, S. repeat split; auto; congruence.
  - destruct (ph c) as [|i x rest| |o| |] eqn:P; try (injection E as <-; exact H). unfold TI in T. rewrite P in T. destruct T as (d & a & N & S & L & EL & A).
    assert (G : forall q, streams q = streams c -> log q = log c ++ [Answer ok] -> alarm q = alarm c -> TI (next q rest)).
    { intros q Q1 Q2 Q3. apply next_TI with (d := d ++ [(i, x)]) (a := a ++ [ok]).
      - rewrite Q1, N, <- app_assoc. reflexivity.
      - rewrite recvOf_app, !app_length. unfold recvOf at 2. cbn [filter snd]. rewrite S. cbn. lia.
      - rewrite Q2, EL, recvOf_app. unfold recvOf at 3. cbn [filter snd]. rewrite S. cbn [map fst]. rewrite exchanges_snoc by exact L. rewrite <- !app_assoc. reflexivity.
      - congruence. }
    unfold setUp in E. destruct ok; apply fine_inj in E; subst s'; apply TIall_set; try exact H; apply G; reflexivity.
  - destruct (ph c) as [|i x rest| |o| |] eqn:P; try (destruct ok; injection E as <-; exact H). unfold TI in T. rewrite P in T. destruct T as (a & L & EL & A). destruct ok.
    + destruct (delay (dur c)) as [o|]; [|discriminate]. cbn [update] in E. injection E as <-. apply TIall_set; [exact H|]. unfold TI. cbn [setAlarm to_ say ph streams log].
      exists a, 0%nat. split; [exact L|]. rewrite EL. unfold whole, hdr. cbn [repeat]. rewrite <- !app_assoc. reflexivity.
    + destruct (shutdown (say [Answer false] c)) as [c'|] eqn:SD; [|discriminate]. injection E as <-. apply TIall_set; [exact H|]. eapply shutdown_TI; [|exact SD].
      exists a, false, (whole (streams c) a false), 0%nat. cbn [say streams log]. split; [exact L|]. split; [rewrite EL; unfold whole, hdr; cbn [repeat]; rewrite <- !app_assoc; reflexivity|].
      split; [left; exists []; rewrite app_nil_r; reflexivity|congruence].
  - destruct (ph c) as [|i x rest| |[o|]| |] eqn:P; try (injection E as <-; exact H). destruct (shutdown c) as [c'|] eqn:SD; [|discriminate]. injection E as <-. apply TIall_set; [exact H|]. eapply shutdown_TI; [|exact SD].
    destruct TB as (a & p & pre & n & L & EL & PR & N). exists a, p, pre, n. auto.
  - destruct (alarm c) eqn:A; [|injection E as <-; exact H]. unfold TI in T. destruct (ph c) as [|i x rest| |o| |] eqn:P; try discriminate.
    + destruct T as (_ & _ & T). congruence.
    + destruct T as (d & a & _ & _ & _ & _ & T). congruence.
    + destruct T as (a & _ & _ & T). congruence.
    + cbn [update] in E. injection E as <-. apply TIall_set; [exact H|]. unfold TI. cbn [say ph streams log]. rewrite P. destruct T as (a & n & L & EL). exists a, (S n). split; [exact L|].
      rewrite EL, <- app_assoc. f_equal. replace (S n) with (n + 1)%nat by lia. rewrite repeat_app. reflexivity.
    + destruct T as (_ & T). congruence.
  - destruct (isIn i (sinks c)); [|injection E as <-; exact H]. destruct (closable c i); [|discriminate]. cbn [update] in E. injection E as <-. apply TIall_set; [exact H|].
    unfold TI in *. cbn [ph streams log alarm]. exact T.
  - unfold removeSession in E. pose proof (fun s1 R => removeAll_alike sid (streams c) s s1 R) as RA.
    assert (AT : forall s1, alikeAll s s1 -> TIall s1). { intros s1 A k c1 F1. specialize (A k). unfold session in F1. rewrite F1 in A. destruct (mfind k (convs s)) as [c0|] eqn:F0; [|contradiction]. eapply alike_TI; [exact A|exact (H k c0 F0)]. }
    destruct (ph c) as [|i x rest| |o| |] eqn:P; try discriminate; try (injection E as <-; exact H);
    (destruct (removeAll sid (streams c) s) as [s1|]; [|discriminate]; specialize (RA s1 eq_refl); pose proof (RA sid) as RS; rewrite F in RS;
     destruct (mfind sid (convs s1)) as [c1|] eqn:F1; [|contradiction]; injection E as <-; apply TIall_set; [apply AT; exact RA|];
     unfold TI; cbn [ph streams log alarm]; split; [|reflexivity]; destruct RS as (R1 & R2 & R3 & R4 & _); rewrite R2, R4;
     destruct TB as (a & p & pre & n & L & EL & PR & N); exists a, p, pre, n, [Ask Teardown]; rewrite EL; split; [exact L|]; split; [rewrite <- app_assoc; reflexivity|auto]).
Qed.
Lemma reachable_ind' (P : rx -> Prop) : P rx0 -> (forall s x s', P s -> step s x = Fine s' -> P s') -> forall s, reachable s -> P s.
Proof.
  intros B S s (l & R). enough (G : forall l s0, P s0 -> run s0 l = Fine s -> P s) by (eapply G; eauto). clear l R.
  induction l as [|x l IH]; intros s0 P0 R; cbn [run] in R; [injection R as <-; exact P0|]. destruct (step s0 x) as [s1| |] eqn:E; try discriminate. eapply IH; [|exact R]. eapply S; eauto.
Qed.
Lemma reachable_TI s : reachable s -> TIall s.
Proof. apply reachable_ind'; [intros k c F; discriminate|]. intros. eapply step_TI; eauto. Qed.
