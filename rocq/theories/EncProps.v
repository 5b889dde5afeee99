(** C39: coded pictures carry the times of the picture they encode. C47: intra pictures on a common grid.
    C48: encoder settings. *)
From Coq Require Import String.
From Verif Require Import Base ZMap EncModel EncSpec EncProofs.
Local Open Scope list_scope.
Local Open Scope Z_scope.

Definition reachable (l : lib) (e : enc) : Prop := exists ops es, run l ops enc0 = (e, es).

(** ** C39 *)
(** For every history of pictures, events and reopenings, and every codec that keeps to the contract: a coded picture
    that comes out is that of exactly one picture taken by the codec since it was opened, and carries its times, number and size. *)
Theorem C39_times_of_own_picture l ops e es a x b f : run l ops enc0 = (e, es) -> honest es -> es = a ++ x :: b -> deliv x = Some f ->
  exists o d ns p, ans x = Coded o d ns /\ In (o, p) (taken (sessionOf (a ++ [x]))) /\ (forall p', In (o, p') (taken (sessionOf (a ++ [x]))) -> p' = p) /\
    pres f = ptm p /\ org f = otm p /\ seq f = sno p /\ owid f = wid p /\ ohei f = hei p.
Proof.
  intros R H E D. destruct (run_inv l ops enc0 e es [] inv0 R H) as [_ RI]. destruct (RI _ _ _ _ E D) as (o & d & ns & p & A1 & A2 & A3 & A4 & A5 & A6 & A7 & _). cbn [app] in *.
  rewrite sessionOf_snoc. exists o, d, ns, p. repeat split; auto. intros p' P.
  apply (nodup_fun _ _ _ _ (run_nodup l ops enc0 e es [] inv0 R H a x b E) P A2).
Qed.
(** The decode time is the presentation time of the picture whose number the codec gives as dts, when it has taken it since it was
    opened. So when the pictures come in order, no picture is to be decoded after it is to be shown. *)
Theorem C39_decode_time l ops e es a x b f o d ns r : run l ops enc0 = (e, es) -> honest es -> es = a ++ x :: b -> deliv x = Some f ->
  ans x = Coded o d ns -> In (d, r) (taken (sessionOf (a ++ [x]))) -> dec f = ptm r /\
  ((forall n m p q, In (n, p) (taken (sessionOf (a ++ [x]))) -> In (m, q) (taken (sessionOf (a ++ [x]))) -> n < m -> ptm p < ptm q) -> dec f <= pres f).
Proof.
  intros R H E D A T. destruct (run_inv l ops enc0 e es [] inv0 R H) as [_ RI]. destruct (RI _ _ _ _ E D) as (o' & d' & ns' & p & A1 & A2 & A3 & _ & _ & _ & _ & A8). cbn [app] in *.
  rewrite sessionOf_snoc in *. rewrite A in A1. injection A1 as <- <- <-. specialize (A8 _ T). split; [exact A8|]. intros M. rewrite A8, A3.
  pose proof (H a x b E) as F. unfold fair in F. destruct (given x) as [[[n i] p0]|] eqn:G.
  - rewrite A in F. destruct F as (_ & _ & F & _). destruct (Z.eq_dec d o) as [->|N]; [|specialize (M _ _ _ _ T A2 ltac:(lia)); lia].
    pose proof (A8 : dec f = ptm r). assert (ptm p = ptm r); [|lia].
    destruct (C39_times_of_own_picture l ops e es a x b f R H E D) as (o' & d' & ns' & p1 & B1 & _ & B3 & _). rewrite A in B1. injection B1 as <- <- <-. rewrite sessionOf_snoc in B3. rewrite (B3 _ A2), (B3 _ T). reflexivity.
  - exfalso. apply (run_given _ _ _ _ _ R x f) in G; [contradiction| |exact D]. rewrite E. apply in_or_app. right. left. reflexivity.
Qed.
(** Decode times increase from one coded picture to any later one of the same opening. *)
Theorem C39_decode_times_increase l ops e es a x b y c f g o d ns r o' d' ns' r' : run l ops enc0 = (e, es) -> honest es -> es = a ++ x :: b ++ y :: c ->
  Forall (fun z => fresh z = false) (b ++ [y]) -> deliv x = Some f -> deliv y = Some g ->
  ans x = Coded o d ns -> In (d, r) (taken (sessionOf (a ++ [x]))) -> ans y = Coded o' d' ns' -> In (d', r') (taken (sessionOf (a ++ x :: b ++ [y]))) ->
  (forall n m p q, In (n, p) (taken (sessionOf (a ++ x :: b ++ [y]))) -> In (m, q) (taken (sessionOf (a ++ x :: b ++ [y]))) -> n < m -> ptm p < ptm q) -> dec f < dec g.
Proof.
  intros R H E FR D1 D2 A1 T1 A2 T2 M.
  destruct (C39_decode_time l ops e es a x (b ++ y :: c) f o d ns r R H E D1 A1 T1) as [-> _].
  assert (E2 : es = (a ++ x :: b) ++ y :: c) by (rewrite E, <- app_assoc; reflexivity).
  replace (a ++ x :: b ++ [y]) with ((a ++ x :: b) ++ [y]) in * by (rewrite <- app_assoc; reflexivity).
  destruct (C39_decode_time l ops e es (a ++ x :: b) y c g o' d' ns' r' R H E2 D2 A2 T2) as [-> _].
  assert (GX : given x <> None) by (apply (run_given _ _ _ _ _ R x f); [|exact D1]; rewrite E; apply in_or_app; right; left; reflexivity).
  assert (GY : given y <> None) by (apply (run_given _ _ _ _ _ R y g); [|exact D2]; rewrite E2; apply in_or_app; right; left; reflexivity).
  assert (L1 : lastDts (sessionOf (a ++ [x])) = Some d).
  { rewrite sessionOf_snoc. unfold after. destruct (given x) as [[[n i] p]|]; [|congruence]. rewrite A1. reflexivity. }
  pose proof (H (a ++ x :: b) y c E2) as FY.
  apply Forall_app in FR. destruct FR as [FB FY2]. apply Forall_inv in FY2.
  destruct (last_grows b (a ++ [x]) d) as (l' & L2 & L3); [|exact FB|exact L1|].
  { rewrite <- app_assoc. cbn [app]. rewrite E2 in H. exact (honest_app _ _ H). }
  rewrite <- app_assoc in L2. cbn [app] in L2.
  assert (LT : d < d').
  { unfold fair in FY. rewrite FY2 in FY. destruct (given y) as [[[n i] p]|]; [|congruence]. rewrite A2 in FY. destruct FY as (_ & _ & _ & FY). specialize (FY _ L2). lia. }
  apply (M d d'); [|exact T2|exact LT].
  rewrite sessionOf_snoc. apply (after_grows y _ FY2). assert (X : incl (taken (sessionOf (a ++ [x]))) (taken (fold_left after b (sessionOf (a ++ [x]))))) by (apply session_grows, FB).
  apply X in T1. unfold sessionOf in *. rewrite <- fold_left_app, <- app_assoc in T1. exact T1.
Qed.
(** With a codec of constant delay, no more timing records are kept than pictures the codec has not given back, its delay, and one. *)
Theorem C39_records_bounded l ops e es delay : 0 <= delay -> run l ops enc0 = (e, es) -> honest es -> steady delay es ->
  Z.of_nat (length (qFTP e)) <= Z.of_nat (accepted es) - Z.of_nat (length (delivered es)) + delay + 1.
Proof.
  intros D R H ST. destruct (run_inv l ops enc0 e es [] inv0 R H) as [I _].
  assert (K : kept delay e ([] ++ es)).
  { apply (run_kept delay l ops D enc0 e es [] inv0); auto. split; [reflexivity|]. split; [cbn; lia|]. intros k K. cbn in K. congruence. }
  destruct K as (K1 & K2 & K3). cbn [app] in *.
  assert (B : Z.of_nat (length (qFTP e)) <= inPts e - Z.max 0 (Z.of_nat (length (delivered es)) - delay) + 1).
  { apply sorted_length; [apply I|pose proof (i_pos _ _ I); lia|]. intros k N. pose proof (K3 _ N). destruct (mfind k (qFTP e)) eqn:V; [|congruence]. apply (i_keys _ _ I) in V. lia. }
  lia.
Qed.

Definition rqNone : request := mkRq None None None None None None None None None.
Definition pic0 (t n : Z) : pic := mkPic t (10 * t) n 320 240 2.
(** A codec with B pictures: delay 1, pictures 0 2 1 in coding order. *)
Definition bframes : list op :=
  [Picture (pic0 1000000 7) Fresh Delayed; Picture (pic0 1040000 8) Fresh (Coded 0 (-1) [100]); Picture (pic0 1080000 9) Fresh (Coded 2 0 [50; 60]); Picture (pic0 1120000 10) Fresh (Coded 1 1 [20])].
Ltac fairLit := vm_compute; repeat split; intros; repeat match goal with H : Some _ = Some _ |- _ => injection H as <- end; try discriminate; intuition discriminate.
Lemma bframes_honest : honest (snd (run X264 bframes enc0)).
Proof.
  intros a x b E. vm_compute in E. do 4 (destruct a as [|? a]; [injection E as <- _; fairLit|injection E as <- E]). destruct a; discriminate.
Qed.
Example C39_times_meets : let '(e, es) := run X264 bframes enc0 in honest es /\ steady 1 es /\ length (qFTP e) = 2%nat /\
  map (fun f => (pres f, dec f, seq f)) (delivered es) = [(1000000, 0, 7); (1080000, 1000000, 9); (1040000, 1040000, 8)].
Proof.
  pose proof bframes_honest as B. destruct (run X264 bframes enc0) as [e es] eqn:R. split; [exact B|]. vm_compute in R. injection R as <- <-. split; [|split; reflexivity].
  intros a x b o d ns E. do 4 (destruct a as [|? a]; [injection E as <- _; intros _ A; vm_compute in A; first [discriminate|injection A as <- <- <-; split; [reflexivity|discriminate]]|injection E as <- E]). destruct a; discriminate.
Qed.
(** Not every decode time is a time of the stream: a codec with B pictures starts with dts before the first picture, and these
    pictures get decode time zero. *)
Theorem C39_first_decode_time_refuted l ops e es a x b f o d ns : run l ops enc0 = (e, es) -> honest es -> es = a ++ x :: b -> deliv x = Some f ->
  ans x = Coded o d ns -> d < 0 -> dec f = 0.
Proof.
  intros R H E D A N.
  assert (G : forall ops e0 e1 es' c, inv e0 (sessionOf c) -> run l ops e0 = (e1, es') -> honest (c ++ es') -> forall y, In y es' -> deliv y = Some f -> ans y = Coded o d ns -> dec f = 0).
  { clear - N. induction ops as [|op ops IH]; intros e0 e1 es' c I R H y Y D A; cbn [run] in R; [injection R as <- <-; contradiction|].
    destruct (step l op e0) as [e2 xs] eqn:S1. destruct (run l ops e2) as [e3 ys] eqn:R2. injection R as <- <-. rewrite app_assoc in H.
    destruct (step_inv _ _ _ _ _ _ I S1 (honest_app _ _ H)) as [I1 _]. apply in_app_or in Y. destruct Y as [Y|Y]; [|exact (IH _ _ _ _ I1 R2 H y Y D A)].
    destruct op as [p op a| | | |]; cbn [step] in S1; try (injection S1 as <- <-; contradiction). destruct (process l op a p e0) as [e4 z] eqn:P. injection S1 as <- <-. destruct Y as [->|[]].
    clear R2 IH. apply honest_app in H. apply honest_snoc in H. destruct H as [_ F]. unfold process in P. destruct (reconfigure l op p e0) as [[e5 ok] fr] eqn:RC.
    destruct (reconfigure_spec _ _ _ _ _ _ _ _ I RC) as (I5 & _).
    destruct ok; cbn [negb] in P; [|injection P as _ <-; discriminate]. destruct (negb (supported l (cfmt e5))); [injection P as _ <-; discriminate|].
    destruct (gopCheck _ _ _ _) as [ref fi]. destruct (isOpen e5); cbn [negb] in P; [|injection P as _ <-; discriminate]. destruct a as [| |o1 d1 ns1]; [injection P as _ <-; discriminate..|].
    destruct (setSlices _ _) as [h fits]. destruct fits; cbn [negb] in P; [|injection P as _ <-; discriminate].
    assert (AA : Coded o1 d1 ns1 = Coded o d ns) by (destruct (at_ o1 _) as [q2 v]; destruct (at_ d1 q2) as [q3 w]; injection P as _ <-; exact A).
    injection AA as -> -> ->.
    assert (NF : mfind d (mset (inPts e5) (paramsOf p) (qFTP e5)) = None).
    { rewrite mfind_mset_neq by (pose proof (i_pos _ _ I5); lia). destruct (mfind d (qFTP e5)) eqn:V; [apply (i_keys _ _ I5) in V; lia|reflexivity]. }
    destruct (at_ o _) as [q2 v] eqn:A2. destruct (at_ d q2) as [q3 w] eqn:A3. injection P as _ <-. cbn [deliv] in D. injection D as <-. cbn [dec].
    assert (W : w = params0); [|rewrite W; reflexivity].
    unfold at_ in A2. destruct (mfind o _) eqn:V; injection A2 as <- <-; unfold at_ in A3.
    - rewrite NF in A3. injection A3 as _ <-. reflexivity.
    - destruct (Z.eq_dec d o) as [->|NE]; [rewrite mfind_mset_eq in A3; injection A3 as _ <-; reflexivity|]. rewrite mfind_mset_neq, NF in A3 by exact NE. injection A3 as _ <-. reflexivity. }
  apply (G ops enc0 e es [] inv0 R H x); auto. rewrite E. apply in_or_app. right. left. reflexivity.
Qed.
(** After a change of settings that gives the codec a longer delay, decode times go back to zero in the middle of the stream. *)
Definition reopened : list op :=
  [Picture (pic0 1000000 0) Fresh (Coded 0 0 [9]); Picture (pic0 1040000 1) Fresh (Coded 1 1 [9]); Configure rqNone;
   Picture (pic0 1080000 2) Fresh Delayed; Picture (pic0 1120000 3) Fresh (Coded 2 1 [9])].
Theorem C39_decode_time_back_refuted : exists e es, run X264 reopened enc0 = (e, es) /\ honest es /\
  map (fun f => (pres f, dec f)) (delivered es) = [(1000000, 1000000); (1040000, 1040000); (1080000, 0)].
Proof.
  eexists. eexists. split; [vm_compute; reflexivity|]. split; [|vm_compute; reflexivity].
  intros a x b E. do 4 (destruct a as [|? a]; [injection E as <- _; fairLit|injection E as <- E]). destruct a; discriminate.
Qed.
(** Every reopening leaves behind for ever the records of the pictures the codec still had, so the records grow without bound
    although the codec never has more than one picture. *)
Definition reopenings (n : nat) : list op := concat (repeat [Configure rqNone; Picture (pic0 1000000 0) Fresh Delayed] n).
Definition plainState (e : enc) (n : nat) : Prop :=
  set e = set enc0 /\ inPts e = Z.of_nat n /\ length (qFTP e) = n /\ forall k, mfind k (qFTP e) <> None -> k < inPts e.
Lemma reopen_once e n : plainState e n -> exists e1 x, run X264 [Configure rqNone; Picture (pic0 1000000 0) Fresh Delayed] e = (e1, [x]) /\ plainState e1 (S n) /\ fresh x = true /\ ans x = Delayed /\ given x <> None.
Proof.
  intros (P1 & P2 & P3 & P4). cbn [run step app]. unfold configEvent. rewrite P1. cbn [fst]. unfold process, reconfigure. cbn. eexists. eexists. split; [reflexivity|].
  split; [|repeat split; discriminate]. split; [reflexivity|]. cbn [inPts qFTP]. split; [lia|]. split.
  - rewrite mset_length_new; [lia|]. destruct (mfind (inPts e) (qFTP e)) eqn:V; [|reflexivity]. specialize (P4 (inPts e)). rewrite V in P4. specialize (P4 ltac:(discriminate)). lia.
  - intros k. rewrite mfind_mset. destruct (Z.eqb_spec k (inPts e)); [lia|]. intros K. apply P4 in K. lia.
Qed.
Lemma run_app l a : forall b e, run l (a ++ b) e = let '(e1, x) := run l a e in let '(e2, y) := run l b e1 in (e2, x ++ y).
Proof.
  induction a as [|o a IH]; intros b e; cbn [app run]; [destruct (run l b e); reflexivity|].
  destruct (step l o e) as [e1 x]. rewrite IH. destruct (run l a e1) as [e2 y]. destruct (run l b e2) as [e3 z]. rewrite app_assoc. reflexivity.
Qed.
Theorem C39_records_kept_refuted n : exists e es, run X264 (reopenings n) enc0 = (e, es) /\ honest es /\ (forall a b, es = a ++ b -> (length (taken (sessionOf a)) <= 1)%nat) /\ length (qFTP e) = n.
Proof.
  assert (G : forall m e k, plainState e k -> exists e' es, run X264 (reopenings m) e = (e', es) /\ plainState e' (m + k) /\ Forall (fun x => fresh x = true /\ ans x = Delayed) es).
  { induction m as [|m IH]; intros e k P; [exists e, []; repeat split; try apply P; constructor|].
    destruct (reopen_once e k P) as (e1 & x & R1 & P1 & F1 & A1 & _). destruct (IH e1 _ P1) as (e2 & es & R2 & P2 & F2). exists e2, (x :: es).
    unfold reopenings. cbn [repeat concat]. rewrite run_app, R1. unfold reopenings in R2. rewrite R2. split; [reflexivity|]. split; [replace (S m + k)%nat with (m + S k)%nat by lia; exact P2|]. constructor; auto. }
  assert (P0 : plainState enc0 0) by (repeat split; intros k K; cbn in K; congruence).
  destruct (G n enc0 0%nat P0) as (e & es & R & P & F). exists e, es. split; [exact R|]. split; [|split].
  - intros a x b E. unfold fair. rewrite E in F. apply Forall_app in F. destruct F as [_ F]. destruct (Forall_inv F) as [F1 F2]. rewrite F2. destruct (given x) as [[[? ?] ?]|]; exact Logic.I.
  - intros a b E. rewrite E in F. apply Forall_app in F. destruct F as [F _]. clear - F. destruct a as [|x a _] using rev_ind; [cbn; lia|]. rewrite sessionOf_snoc. apply Forall_app in F. destruct F as [_ F]. destruct (Forall_inv F) as [F1 F2].
    unfold after. rewrite F1, F2. destruct (given x) as [[[? ?] ?]|]; cbn; lia.
  - destruct P as (_ & _ & P & _). lia.
Qed.
(** As long as no picture is coded in more than sixteen units, every picture the codec codes is delivered, also after the
    connection is made anew. *)
Theorem C39_every_coded_delivered l ops e es : run l ops enc0 = (e, es) ->
  (forall p o k d ns, In (Picture p o (Coded k d ns)) ops -> (length ns <= 16)%nat) ->
  forall x k d ns, In x es -> given x <> None -> ans x = Coded k d ns -> deliv x <> None.
Proof.
  assert (G : forall ops e e' es, held e = 0 -> run l ops e = (e', es) -> (forall p o k d ns, In (Picture p o (Coded k d ns)) ops -> (length ns <= 16)%nat) ->
              forall x k d ns, In x es -> given x <> None -> ans x = Coded k d ns -> deliv x <> None).
  { clear. induction ops as [|o ops IH]; intros e e' es H E N x k d ns I; cbn [run] in E; [injection E as <- <-; destruct I|].
    destruct (step l o e) as [e1 xs] eqn:S1. destruct (run l ops e1) as [e2 ys] eqn:R. injection E as <- <-.
    assert (K : held e1 = 0 /\ forall y k d ns, In y xs -> given y <> None -> ans y = Coded k d ns -> deliv y <> None).
    { clear I IH R. destruct o as [p op a| |t|r|]; cbn [step] in S1; try (injection S1 as <- <-; split; [exact H || reflexivity|intros ? ? ? ? I; destruct I]).
      - destruct (process l op a p e) as [e3 y] eqn:P. injection S1 as <- <-. unfold process in P. destruct (reconfigure l op p e) as [[e4 ok] fr] eqn:RC.
        assert (H4 : held e4 = 0).
        { rewrite <- H. unfold reconfigure in RC. destruct (_ && _); [injection RC as <- _ _; auto|]. destruct (negb _); [injection RC as <- _ _; auto|]. destruct op; injection RC as <- _ _; auto. }
        destruct ok; cbn [negb] in P; [|injection P as <- <-; split; [exact H4|intros z ? ? ? [<-|[]] Z; cbn in Z; congruence]].
        destruct (negb (supported l (cfmt e4))); [injection P as <- <-; split; [exact H4|intros z ? ? ? [<-|[]] Z; cbn in Z; congruence]|].
        destruct (gopCheck _ _ _ _) as [ref fi]. destruct (isOpen e4); cbn [negb] in P; [|injection P as <- <-; split; [exact H4|intros z ? ? ? [<-|[]] Z; cbn in Z; congruence]].
        destruct a as [| |o1 d1 ms]; [injection P as <- <-; split; [exact H4|intros z ? ? ? [<-|[]] _ Z; cbn in Z; discriminate]..|].
        assert (SS : setSlices (held e4) ms = (Z.of_nat (length ms), true)).
        { specialize (N p op o1 d1 ms (or_introl eq_refl)). unfold setSlices, MAX_SLICES. rewrite H4. destruct (Z.leb_spec (0 + Z.of_nat (length ms)) 16); [reflexivity|lia]. }
        rewrite SS in P. cbn [negb] in P. destruct (at_ o1 _) as [q2 v]. destruct (at_ d1 q2) as [q3 w]. injection P as <- <-.
        split; [reflexivity|]. intros z ? ? ? [<-|[]] _ _. discriminate.
      - injection S1 as <- <-. split; [|intros ? ? ? ? I; destruct I]. unfold configEvent. destruct (configure0 _ _ _ _ _ _ _ _ _ _); exact H. }
    destruct K as [K1 K2]. apply in_app_or in I. destruct I as [I|I]; [apply (K2 x k d ns I)|].
    apply (IH e1 e2 ys K1 R) with (k := k) (d := d) (ns := ns); [|exact I]. intros p' o' k' d' ns' I'. apply (N p' o' k' d'). right. exact I'. }
  intros R N x k d ns. apply (G ops enc0 e es eq_refl R N).
Qed.
Example C39_every_coded_delivered_meets : exists e es x, run X264 [Picture (pic0 1000000 0) Fresh (Coded 0 0 (repeat 9 16)); NewQueue; Picture (pic0 1040000 1) Kept (Coded 1 1 (repeat 9 16))] enc0 = (e, es) /\ In x es /\ given x <> None /\ ans x = Coded 1 1 (repeat 9 16).
Proof. eexists. eexists. eexists. split; [reflexivity|]. split; [right; left; reflexivity|]. split; [discriminate|reflexivity]. Qed.
(** Which pictures the codec gets: those of a format it codes, if it is open for pictures of that size and format, or
    can be opened or set up anew. *)
Lemma codes_iff l f : supported l f = true <-> codes l f.
Proof.
  unfold supported, codes. destruct l; rewrite ?orb_true_iff, !Z.eqb_eq; split; [intros [[A|A]|A]; auto|intros [A|[A|[A _]]]; auto|intros [A|A]; auto|intros [A|[A|[_ A]]]; auto; discriminate].
Qed.
Theorem C39_given l o a p e e1 x : process l o a p e = (e1, x) ->
  (given x <> None <-> codes l (pfmt p) /\ (asBefore p e /\ isOpen e = true \/ ~ asBefore p e /\ (o = Fresh \/ o = Kept))) /\
  (forall n i q, given x = Some (n, i, q) -> q = p).
Proof.
  intros E. unfold process in E.
  assert (AB : negb (needsConfig e) && (wid p =? cwid e) && (hei p =? chei e) && (pfmt p =? cfmt e) = true <-> asBefore p e).
  { unfold asBefore. rewrite !andb_true_iff, negb_true_iff, !Z.eqb_eq. tauto. }
  destruct (reconfigure l o p e) as [[e2 ok] fr] eqn:RC.
  assert (R : cfmt e2 = pfmt p /\ (ok = true -> supported l (cfmt e2) = true -> (isOpen e2 = true <-> asBefore p e /\ isOpen e = true \/ ~ asBefore p e /\ (o = Fresh \/ o = Kept))) /\
    (ok = false -> ~ (codes l (pfmt p) /\ (asBefore p e /\ isOpen e = true \/ ~ asBefore p e /\ (o = Fresh \/ o = Kept))))).
  { unfold reconfigure in RC. destruct (negb (needsConfig e) && _ && _ && _) eqn:B.
    - injection RC as <- <- _. pose proof (proj1 AB eq_refl) as A. split; [symmetry; apply A|]. split; [intros _ _; tauto|discriminate].
    - assert (NA : ~ asBefore p e) by (intros A; apply AB in A; discriminate).
      destruct (supported l (pfmt p)) eqn:S; cbn [negb] in RC.
      + destruct o; injection RC as <- <- _; cbn [cfmt isOpen]; (split; [reflexivity|]); (split; [intros X _; try discriminate; intuition congruence|intros X; try discriminate; intuition congruence]).
      + injection RC as <- <- _. split; [reflexivity|]. split; [discriminate|]. intros _ (C & _). apply codes_iff in C. congruence. }
  destruct R as (R1 & R2 & R3). destruct ok; cbn [negb] in E.
  2:{ injection E as <- <-. cbn [given]. split; [|discriminate]. split; [congruence|]. intros X. destruct (R3 eq_refl X). }
  destruct (supported l (cfmt e2)) eqn:S; cbn [negb] in E.
  2:{ injection E as <- <-. cbn [given]. split; [|discriminate]. split; [congruence|]. intros (X & _). rewrite <- R1 in X. apply codes_iff in X. congruence. }
  specialize (R2 eq_refl eq_refl). rewrite R1 in S. apply codes_iff in S. destruct (gopCheck _ _ _ _) as [ref fi]. destruct (isOpen e2) eqn:OP; cbn [negb] in E.
  2:{ injection E as <- <-. cbn [given]. split; [|discriminate]. split; [congruence|]. intros (_ & X). apply R2 in X. discriminate. }
  assert (G : given x = Some (inPts e2, fi, p)).
  { destruct a as [| |k d ns]; [injection E as <- <-; reflexivity..|]. destruct (setSlices _ _) as [h fits]. destruct fits; cbn [negb] in E; [|injection E as <- <-; reflexivity].
    destruct (at_ k _) as [q2 v]. destruct (at_ d q2) as [q3 w]. injection E as <- <-. reflexivity. }
  rewrite G. split; [|intros n i q X; injection X as _ _ <-; reflexivity]. split; [intros _; split; [exact S|apply R2; reflexivity]|discriminate].
Qed.
Example C39_given_meets : given (snd (process X264 Fresh Delayed (pic0 1000000 0) enc0)) <> None /\ codes X264 (pfmt (pic0 1000000 0)) /\ ~ asBefore (pic0 1000000 0) enc0.
Proof. split; [discriminate|]. split; [left; reflexivity|]. intros (A & _). discriminate. Qed.
(** A picture coded in more than sixteen units is not delivered, and neither is any later one until the connection is made anew. *)
Theorem C39_too_many_units_refuted l e e1 x p o k d ns ops e' es : process l o (Coded k d ns) p e = (e1, x) -> given x <> None -> held e + Z.of_nat (length ns) > MAX_SLICES ->
  run l ops e1 = (e', es) -> (forall o, In o ops -> o <> NewQueue /\ forall p op x y, o <> Picture p op (Coded x y [])) -> deliv x = None /\ delivered es = [].
Proof.
  intros P G N R OK. unfold process in P. destruct (reconfigure l o p e) as [[e4 ok] fr] eqn:RC.
  assert (H4 : held e4 = held e).
  { unfold reconfigure in RC. destruct (_ && _); [injection RC as <- _ _; auto|]. destruct (negb _); [injection RC as <- _ _; auto|]. destruct o; injection RC as <- _ _; auto. }
  destruct ok; cbn [negb] in P; [|injection P as <- <-; cbn in G; congruence]. destruct (negb (supported l (cfmt e4))); [injection P as <- <-; cbn in G; congruence|].
  destruct (gopCheck _ _ _ _) as [ref fi]. destruct (isOpen e4); cbn [negb] in P; [|injection P as <- <-; cbn in G; congruence].
  assert (SS : setSlices (held e4) ns = (MAX_SLICES, false)) by (unfold setSlices; rewrite H4; destruct (Z.leb_spec (held e + Z.of_nat (length ns)) MAX_SLICES); [lia|reflexivity]).
  rewrite SS in P. cbn [negb] in P. injection P as <- <-. split; [reflexivity|]. eapply stuck; [|exact R|exact OK]. reflexivity.
Qed.
Example C39_too_many_units_meets : exists e1 x, process X264 Fresh (Coded 0 0 (repeat 100 17)) (pic0 1000000 0) enc0 = (e1, x) /\ given x <> None /\ held enc0 + Z.of_nat (length (repeat 100 17)) > MAX_SLICES.
Proof. eexists. eexists. split; [reflexivity|]. split; [discriminate|reflexivity]. Qed.
(** A codec that could not be opened for a new picture size is not tried again: the pictures of that size never reach it. *)
Theorem C39_failed_open_refuted l e e1 x p a ops e' es : needsConfig e = false -> supported l (pfmt p) = true -> (wid p <> cwid e \/ hei p <> chei e) ->
  process l OpenFails a p e = (e1, x) -> run l ops e1 = (e', es) -> pictures ops ->
  (forall q o b, In (Picture q o b) ops -> wid q = wid p /\ hei q = hei p /\ pfmt q = pfmt p) -> asked es = [] /\ delivered es = [].
Proof.
  intros N SU D P R PI S1. unfold process, reconfigure in P. rewrite N, SU in P.
  assert (X : negb false && (wid p =? cwid e) && (hei p =? chei e) && (pfmt p =? cfmt e) = false).
  { destruct D as [D|D]; apply Z.eqb_neq in D; rewrite D; [reflexivity|]. rewrite andb_false_r. reflexivity. }
  rewrite X in P. cbn [negb] in P. injection P as <- <-.
  assert (A : asked es = []) by (eapply closed_stays; [| |exact R|exact PI|exact S1]; reflexivity). split; [exact A|].
  pose proof (run_given _ _ _ _ _ R) as G. clear - A G. induction es as [|y es IH]; [reflexivity|]. unfold delivered, asked in *. cbn [flat_map] in *.
  destruct (deliv y) as [f|] eqn:D.
  - specialize (G y f (or_introl eq_refl) D). destruct (given y) as [[[? ?] ?]|]; [discriminate|congruence].
  - cbn [app]. apply IH; [destruct (given y) as [[[? ?] ?]|]; [discriminate|exact A]|]. intros z g Z. apply G. right. exact Z.
Qed.
Example C39_failed_open_meets : let e := fst (run X264 [Picture (pic0 1000000 0) Fresh Delayed] enc0) in needsConfig e = false /\ supported X264 2 = true /\ cwid e <> 640.
Proof. vm_compute. repeat split; discriminate. Qed.

(** ** C47 *)
(** A picture is asked to be intra exactly when a multiple of the GOP time after the reference lies after the previous picture and
    not after this one, for an encoder that is not behind and pictures no further apart than the GOP time. *)
Theorem C47_intra_on_grid l ops e e' es t0 : pictures ops -> run l ops e = (e', es) -> allGiven es -> 0 < gopTime (set e) -> forceIntra e = false ->
  0 < refTime e -> refTime e - gopTime (set e) <= t0 < refTime e -> spaced (gopTime (set e)) t0 (map fst (asked es)) ->
  forall b t i c, asked es = b ++ (t, i) :: c -> (i = true <-> exists k, last (map fst b) t0 < refTime e + k * gopTime (set e) <= t).
Proof. intros P R A G F R0 RT S1. exact (intra_grid l ops _ G e e' es t0 P R A eq_refl F R0 RT S1). Qed.
(** Without a reference time the first picture gives it, and is intra. *)
Theorem C47_first_picture l ops e e' es t0 i0 r : pictures ops -> run l ops e = (e', es) -> allGiven es -> 0 < gopTime (set e) -> refTime e = 0 ->
  asked es = (t0, i0) :: r -> 0 <= t0 -> spaced (gopTime (set e)) t0 (map fst r) ->
  i0 = true /\ forall b t i c, r = b ++ (t, i) :: c -> (i = true <-> exists k, last (map fst b) t0 < t0 + k * gopTime (set e) <= t).
Proof.
  intros P R A G R0 AS T0 SP. destruct ops as [|o ops]; [cbn in R; injection R as <- <-; discriminate|].
  destruct (run_pictures_cons _ _ _ _ _ _ P R A) as (p & op & a & e1 & x & es' & -> & PR & RN & -> & GX & AG' & P').
  destruct (process_given _ _ _ _ _ _ _ PR GX) as (n & GV & RF & FF & SS).
  assert (GC : gopCheck (gopTime (set e)) (ptm p) (refTime e) (forceIntra e) = (ptm p + gopTime (set e), true)).
  { unfold gopCheck. rewrite R0. cbn [Z.eqb]. destruct (Z.gtb_spec (gopTime (set e)) 0); [|lia]. destruct (Z.leb_spec (ptm p - ptm p) 0); [reflexivity|lia]. }
  rewrite GC in *. cbn [fst snd] in *. unfold asked in AS. cbn [flat_map] in AS. rewrite GV in AS. cbn [app] in AS. fold (asked es') in AS. injection AS as <- <- <-.
  split; [reflexivity|]. intros b t i c E. rewrite <- SS in *.
  rewrite (C47_intra_on_grid l ops e1 e' es' (ptm p) P' RN AG' G FF ltac:(lia) ltac:(lia) SP b t i c E). rewrite RF.
  split; intros (k & K); [exists (k + 1)|exists (k - 1)]; nia.
Qed.
(** Encoders with the same GOP time and references a multiple of it apart ask for intra pictures at the same pictures, whatever their codecs answer. *)
Theorem C47_aligned l1 l2 ops1 ops2 e1 e2 e1' e2' es1 es2 t0 k : pictures ops1 -> pictures ops2 -> run l1 ops1 e1 = (e1', es1) -> run l2 ops2 e2 = (e2', es2) -> allGiven es1 -> allGiven es2 ->
  0 < gopTime (set e1) -> gopTime (set e2) = gopTime (set e1) -> forceIntra e1 = false -> forceIntra e2 = false -> 0 < refTime e1 -> 0 < refTime e2 ->
  refTime e2 = refTime e1 + k * gopTime (set e1) ->
  refTime e1 - gopTime (set e1) <= t0 < refTime e1 -> refTime e2 - gopTime (set e1) <= t0 < refTime e2 ->
  map fst (asked es1) = map fst (asked es2) -> spaced (gopTime (set e1)) t0 (map fst (asked es1)) -> asked es1 = asked es2.
Proof.
  intros P1 P2 R1 R2 A1 A2 G GE F1 F2 N1 N2 RK T1 T2 EQ SP.
  pose proof (C47_intra_on_grid _ _ _ _ _ t0 P1 R1 A1 G F1 N1 T1 SP) as H1.
  rewrite <- GE in T2. rewrite EQ in SP. rewrite <- GE in SP. pose proof (C47_intra_on_grid _ _ _ _ _ t0 P2 R2 A2 ltac:(lia) F2 N2 T2 SP) as H2. rewrite GE, RK in H2.
  remember (asked es1) as x eqn:X1. remember (asked es2) as y eqn:X2. clear -H1 H2 EQ.
  assert (K : forall p x' y', map fst x' = map fst y' -> x = p ++ x' -> y = p ++ y' -> x' = y').
  { intros p x'. revert p. induction x' as [|[t i] x' IH]; intros p [|[t' i'] y'] M X Y; try discriminate; [reflexivity|]. cbn [map fst] in M. injection M as <- M.
    specialize (H1 _ _ _ _ X). specialize (H2 _ _ _ _ Y).
    assert (i = i') as <-.
    { assert (B : i = true <-> i' = true); [|destruct i, i'; intuition congruence]. rewrite H1, H2. split; intros (m & L); [exists (m - k)|exists (m + k)]; nia. }
    f_equal. apply (IH (p ++ [(t, i)]) y' M); [rewrite X|rewrite Y]; rewrite <- app_assoc; reflexivity. }
  apply (K [] x y EQ); reflexivity.
Qed.
(** An encoder behind its reference by some GOP times asks for that many intra pictures in a row and is then on the grid. *)
Theorem C47_catches_up l ops e e' es : pictures ops -> run l ops e = (e', es) -> allGiven es -> 0 < gopTime (set e) -> 0 < refTime e ->
  (forall t i, In (t, i) (asked es) -> refTime e + Z.of_nat (length ops) * gopTime (set e) <= t + gopTime (set e)) ->
  (forall t i, In (t, i) (asked es) -> i = true) /\ refTime e' = refTime e + Z.of_nat (length ops) * gopTime (set e).
Proof. intros P R A G R0 T. exact (intra_burst l ops _ G e e' es P R A eq_refl R0 T). Qed.
(** A request for an intra picture holds until a picture reaches the codec. *)
Theorem C47_request_kept l ops e e' es t i r : run l (ForceIntra :: ops) e = (e', es) -> asked es = (t, i) :: r -> i = true.
Proof.
  intros R A. cbn [run step] in R. destruct (run l ops (setForce e)) as [e2 ys] eqn:R2. injection R as <- <-. cbn [app] in A. refine (request_kept l ops (setForce e) _ ys _ R2 t i r A). reflexivity.
Qed.
(** But it is lost when the codec fails on that picture. *)
Theorem C47_request_lost_refuted : exists e es, run X264 [Picture (pic0 1000000 0) Fresh (Coded 0 0 [9]); ForceIntra; Picture (pic0 1040000 1) Fresh Fails; Picture (pic0 1080000 2) Fresh (Coded 1 1 [9])] enc0 = (e, es) /\
  asked es = [(1000000, false); (1040000, true); (1080000, false)] /\ map pres (delivered es) = [1000000; 1080000].
Proof. eexists. eexists. split; [vm_compute; reflexivity|]. split; reflexivity. Qed.
(** One picture per GOP time is not what comes out after a gap: here four intra pictures in a row, 20 ms apart, at a GOP time of one second. *)
Definition rqGop : request := mkRq None None None None None None None None (Some 1000000).
Theorem C47_burst_refuted : exists e es, run X264 (Configure rqGop :: map (fun t => Picture (pic0 t 0) Fresh Delayed) [5000000; 9000000; 9020000; 9040000; 9060000; 9080000]) enc0 = (e, es) /\
  asked es = [(5000000, true); (9000000, true); (9020000, true); (9040000, true); (9060000, true); (9080000, false)].
Proof. eexists. eexists. split; [vm_compute; reflexivity|]. reflexivity. Qed.
Example C47_first_picture_meets : exists e e' es r, run X264 [Configure rqGop] enc0 = (e, []) /\ 0 < gopTime (set e) /\ refTime e = 0 /\
  run X264 (map (fun t => Picture (pic0 t 0) Fresh Delayed) [5000000; 5600000; 6200000; 7000000]) e = (e', es) /\ allGiven es /\ asked es = (5000000, true) :: r /\ spaced (gopTime (set e)) 5000000 (map fst r) /\
  r = [(5600000, false); (6200000, true); (7000000, true)].
Proof.
  eexists. eexists. eexists. eexists. split; [vm_compute; reflexivity|]. split; [reflexivity|]. split; [reflexivity|]. split; [vm_compute; reflexivity|].
  split; [repeat (apply Forall_cons; [discriminate|]); apply Forall_nil|]. split; [reflexivity|]. split; [cbn; lia|reflexivity].
Qed.
Example C47_grid_meets : exists e es, run X264 [Configure rqGop; Picture (pic0 5000000 0) Fresh Delayed] enc0 = (e, es) /\ 0 < gopTime (set e) /\ forceIntra e = false /\ 0 < refTime e /\ refTime e - gopTime (set e) <= 5000000 < refTime e.
Proof. eexists. eexists. split; [vm_compute; reflexivity|]. cbn. repeat split; lia. Qed.

(** ** C48 *)
(** A configuration that is refused changes nothing. *)
Theorem C48_refused_changes_nothing r e e' : configEvent r e = (e', false) -> e' = e.
Proof. unfold configEvent. destruct (configure0 _ _ _ _ _ _ _ _ _ _); intros E; [discriminate|]. injection E as <-. reflexivity. Qed.
(** The numbers a request may hold: those of an int that are not negative. *)
Definition nonneg (r : request) : Prop :=
  forall x, In (Some x) [rBitrate r; rFps r; rGop r; rLookahead r; rThreads r; rGopTime r] -> 0 <= x < 2147483648.
Lemma pickU_ok r old x : (forall y, r = Some y -> 0 <= y < 2147483648) -> pickU r old = match r with Some y => y | None => old end \/ x = 0.
Proof. intros H. left. destruct r as [y|]; [|reflexivity]. cbn. unfold asUnsigned. specialize (H y eq_refl). apply Z.mod_small. lia. Qed.
(** In every state a filter can be in, a request is refused exactly when it asks for a zero bitrate, GOP or number of threads, or for no preset. *)
Theorem C48_refused_iff l e r : reachable l e -> nonneg r ->
  (snd (configEvent r e) = false <-> rBitrate r = Some 0 \/ rGop r = Some 0 \/ rThreads r = Some 0 \/ rPreset r = Some ""%string).
Proof.
  intros (ops & es & R) N. pose proof (run_valid _ _ _ _ _ valid0 R) as (V1 & V2 & V3 & V4 & V5 & V6 & _). unfold nonneg in N. cbn [In] in N.
  assert (U : forall q old, In q [rBitrate r; rFps r; rGop r; rLookahead r; rThreads r; rGopTime r] -> pickU q old = match q with Some y => y | None => old end).
  { intros q old Q. destruct (pickU_ok q old 1) as [E|E]; [|exact E|discriminate]. intros y ->. apply N. exact Q. }
  unfold configEvent, configure0. rewrite (U (rBitrate r)), (U (rGop r)), (U (rLookahead r)), (U (rThreads r)) by (cbn; auto 10).
  assert (LA : 0 <= match rLookahead r with Some y => y | None => lookahead (set e) end) by (destruct (rLookahead r) eqn:Q; [apply N; auto|exact V6]).
  apply Z.ltb_ge in LA. rewrite LA. unfold pick.
  match goal with |- context[if ?b then None else _] => destruct b eqn:C end; cbn [snd].
  - split; [intros _|reflexivity]. rewrite !orb_true_iff, !Z.leb_le, String.eqb_eq in C. destruct C as [[[[C|C]|C]|C]|C]; [|..|discriminate C| |]; auto.
    + destruct (rBitrate r) as [y|] eqn:Q; [|lia]. assert (0 <= y) by (apply N; auto). left. f_equal. lia.
    + destruct (rGop r) as [y|] eqn:Q; [|lia]. assert (0 <= y) by (apply N; auto 10). right. left. f_equal. lia.
    + destruct (rThreads r) as [y|] eqn:Q; [|lia]. assert (0 <= y) by (apply N; auto 10). right. right. left. f_equal. lia.
    + destruct (rPreset r) as [y|]; [|congruence]. subst y. auto.
  - split; [discriminate|]. rewrite !orb_false_iff, !Z.leb_gt, String.eqb_neq in C. destruct C as ((((C1 & C2) & _) & C3) & C4).
    intros [Q|[Q|[Q|Q]]]; rewrite Q in *; try lia. congruence.
Qed.
(** An accepted request sets what it names and nothing else: fps zero turns pacing off, and a GOP time below a second becomes a second. *)
Theorem C48_accepted_sets l e r e' : reachable l e -> nonneg r -> configEvent r e = (e', true) ->
  let s := set e in let s' := set e' in let named {A} (q : option A) (old : A) := match q with Some y => y | None => old end in
  bitrate s' = named (rBitrate r) (bitrate s) /\ gop s' = named (rGop r) (gop s) /\ lookahead s' = named (rLookahead r) (lookahead s) /\ threads s' = named (rThreads r) (threads s) /\
  bFrames s' = named (rBframes r) (bFrames s) /\ annexb s' = named (rAnnexb r) (annexb s) /\ preset s' = named (rPreset r) (preset s) /\
  gopTime s' = match rGopTime r with None => gopTime s | Some 0 => 0 | Some g => Z.max 1000000 g end /\
  match rFps r with
  | Some f => if f =? 0 then ftime s' = 0 else fps s' = f /\ ftime s' * f <= 1000000 < (ftime s' + 1) * f
  | None => fps s' = fps s /\ (ftime s <> 0 -> ftime s' = ftime s)
  end /\ forceIntra e' = forceIntra e /\ refTime e' = refTime e /\ qFTP e' = qFTP e /\ inPts e' = inPts e.
Proof.
  intros (ops & es & R) N E. pose proof (run_valid _ _ _ _ _ valid0 R) as (V1 & V2 & V3 & V4 & V5 & V6 & V7 & V8). unfold nonneg in N. cbn [In] in N.
  assert (U : forall q old, In q [rBitrate r; rFps r; rGop r; rLookahead r; rThreads r; rGopTime r] -> pickU q old = match q with Some y => y | None => old end).
  { intros q old Q. destruct (pickU_ok q old 1) as [X|X]; [|exact X|discriminate]. intros y ->. apply N. exact Q. }
  unfold configEvent, configure0 in E. rewrite (U (rBitrate r)), (U (rGop r)), (U (rLookahead r)), (U (rThreads r)), (U (rFps r)), (U (rGopTime r)) in E by (cbn; auto 10).
  match type of E with context[if ?b then None else _] => destruct b eqn:C end; [discriminate|]. injection E as <-. cbn [set bitrate gop lookahead threads bFrames annexb preset gopTime fps ftime forceIntra refTime qFTP inPts].
  clear C. do 7 (split; [reflexivity|]). split; [|split; [|auto]].
  - unfold MIN_GOP_TIME in *. destruct (rGopTime r) as [g|] eqn:Q.
    + assert (0 <= g) by (apply N; auto 10). destruct (Z.gtb_spec g 0); [|assert (g = 0) as -> by lia; reflexivity]. destruct g; try lia. destruct (Z.ltb_spec (Z.pos p) 1000000); lia.
    + destruct (Z.gtb_spec (gopTime (set e)) 0); [|lia]. destruct (Z.ltb_spec (gopTime (set e)) 1000000); lia.
  - destruct (rFps r) as [f|] eqn:Q.
    + assert (0 <= f) by (apply N; auto 10). destruct (Z.eqb_spec f 0) as [->|Z0]; [reflexivity|]. destruct (Z.leb_spec f 0); [lia|]. split; [reflexivity|].
      pose proof (Z.mul_div_le 1000000 f ltac:(lia)). pose proof (Z.mul_succ_div_gt 1000000 f ltac:(lia)). lia.
    + destruct (Z.leb_spec (fps (set e)) 0); [lia|]. split; [reflexivity|]. intros T. destruct V8 as [V8|V8]; [contradiction|]. symmetry. exact V8.
Qed.
(** A later request that does not name the frame rate turns pacing on again. *)
Definition rqFps (f : Z) : request := mkRq None (Some f) None None None None None None None.
Definition rqBitrate (b : Z) : request := mkRq (Some b) None None None None None None None None.
Theorem C48_unpaced_lost_refuted : ftime (set (fst (run X264 [Configure (rqFps 0)] enc0))) = 0 /\ ftime (set (fst (run X264 [Configure (rqFps 0); Configure (rqBitrate 3000)] enc0))) = 40000.
Proof. split; reflexivity. Qed.
(** Negative numbers are accepted as very large ones. *)
Theorem C48_negative_refuted e b : validSet (set e) -> -2147483648 <= b < 0 -> snd (configEvent (rqBitrate b) e) = true /\ bitrate (set (fst (configEvent (rqBitrate b) e))) = b + 4294967296.
Proof.
  intros (V1 & V2 & V3 & V4 & V5 & V6 & _) B. unfold configEvent, configure0. cbn [rBitrate rGop rLookahead rThreads rPreset rFps rGopTime rBframes rAnnexb rqBitrate pickU pick].
  assert (M : asUnsigned b = b + 4294967296) by (unfold asUnsigned; symmetry; apply (Z.mod_unique b 4294967296 (-1)); lia). rewrite M.
  destruct (Z.leb_spec (b + 4294967296) 0); [lia|]. destruct (Z.leb_spec (gop (set e)) 0); [lia|]. destruct (Z.ltb_spec (lookahead (set e)) 0); [lia|]. destruct (Z.leb_spec (threads (set e)) 0); [lia|].
  apply String.eqb_neq in V4. rewrite V4. cbn. auto.
Qed.
(** A frame rate above a million turns pacing off. *)
Theorem C48_high_rate_refuted e f : validSet (set e) -> 1000000 < f < 2147483648 -> ftime (set (fst (configEvent (rqFps f) e))) = 0 /\ fps (set (fst (configEvent (rqFps f) e))) = f.
Proof.
  intros (V1 & V2 & V3 & V4 & V5 & V6 & _) B. unfold configEvent, configure0. cbn [rBitrate rGop rLookahead rThreads rPreset rFps rGopTime rBframes rAnnexb rqFps pickU pick].
  assert (M : asUnsigned f = f) by (unfold asUnsigned; apply Z.mod_small; lia). rewrite M.
  destruct (Z.leb_spec (bitrate (set e)) 0); [lia|]. destruct (Z.leb_spec (gop (set e)) 0); [lia|]. destruct (Z.ltb_spec (lookahead (set e)) 0); [lia|]. destruct (Z.leb_spec (threads (set e)) 0); [lia|].
  apply String.eqb_neq in V4. rewrite V4. cbn. destruct (Z.leb_spec f 0); [lia|]. split; [apply Z.div_small; lia|reflexivity].
Qed.
Example C48_meets : reachable X264 enc0 /\ nonneg (rqBitrate 3000) /\ snd (configEvent (rqBitrate 3000) enc0) = true /\ bitrate (set (fst (configEvent (rqBitrate 3000) enc0))) = 3000.
Proof.
  split; [exists [], []; reflexivity|]. split; [|split; reflexivity]. intros x X. cbn in X. repeat (destruct X as [X|X]; [try discriminate; injection X as <-; lia|]). contradiction.
Qed.

Print Assumptions C39_every_coded_delivered.
Print Assumptions C39_times_of_own_picture.
Print Assumptions C39_decode_time.
Print Assumptions C39_decode_times_increase.
Print Assumptions C39_records_bounded.
Print Assumptions C39_first_decode_time_refuted.
Print Assumptions C39_decode_time_back_refuted.
Print Assumptions C39_records_kept_refuted.
Print Assumptions C39_too_many_units_refuted.
Print Assumptions C39_failed_open_refuted.
Print Assumptions C47_intra_on_grid.
Print Assumptions C47_first_picture.
Print Assumptions C47_aligned.
Print Assumptions C47_catches_up.
Print Assumptions C47_request_kept.
Print Assumptions C47_request_lost_refuted.
Print Assumptions C47_burst_refuted.
Print Assumptions C48_refused_changes_nothing.
Print Assumptions C48_refused_iff.
Print Assumptions C48_accepted_sets.
Print Assumptions C48_unpaced_lost_refuted.
Print Assumptions C48_negative_refuted.
Print Assumptions C48_high_rate_refuted.
Print Assumptions C39_given.
