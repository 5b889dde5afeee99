From Coq Require Import ZArith List Bool String Lia.
From Verif Require Import NamesModel JsonModel V4lModel V4lSpec.
From Verif Require CtlModel CtlSpec CtlProofs SessProofs.
Import ListNotations.
Local Open Scope Z_scope.
Local Open Scope list_scope.

Lemma opened_app : forall a b h, opened (a ++ b) h = opened b (opened a h).
Proof. induction a as [|x a IH]; intros; [reflexivity|]. destruct x; cbn [opened List.app]; apply IH. Qed.
Lemma mapped_app : forall a b h, mapped (a ++ b) h = mapped b (mapped a h).
Proof. induction a as [|x a IH]; intros; [reflexivity|]. destruct x; cbn [mapped List.app]; apply IH. Qed.
Lemma streaming_app : forall a b h, streaming (a ++ b) h = streaming b (streaming a h).
Proof. induction a as [|x a IH]; intros; [reflexivity|]. destruct x; cbn [streaming List.app]; apply IH. Qed.

Lemma wanted_eq : forall s, getFormatFromString s = wanted s.
Proof.
  intros s. unfold getFormatFromString, wanted, names, getPixTypeFromString, getVideoCodecFromString. cbn [find fst snd].
  rewrite !(String.eqb_sym _ s).
  destruct (String.eqb s "YUYV") eqn:A1; [reflexivity|].
  destruct (String.eqb s "YUV420") eqn:A2; [reflexivity|].
  destruct (String.eqb s "RGB24") eqn:A3.
  { apply String.eqb_eq in A3. subst s. reflexivity. }
  destruct (String.eqb s "YUV422") eqn:A4; [reflexivity|].
  destruct (String.eqb s "YUVJ") eqn:A5.
  { apply String.eqb_eq in A5. subst s. reflexivity. }
  destruct (String.eqb s "H264") eqn:A6; [reflexivity|].
  destruct (String.eqb s "H265") eqn:A7.
  { apply String.eqb_eq in A7. subst s. reflexivity. }
  destruct (String.eqb s "VP8") eqn:A8.
  { apply String.eqb_eq in A8. subst s. reflexivity. }
  destruct (String.eqb s "MJPEG") eqn:A9; [reflexivity|].
  destruct (String.eqb s "RAW"); reflexivity.
Qed.

(* What does not change. *)
Definition same (c c' : cam) : Prop :=
  st c' = st c /\ fd c' = fd c /\ fmt c' = fmt c /\ opix c' = opix c /\ ocodec c' = ocodec c /\ force c' = force c /\ dur c' = dur c.

Fixpoint zseq (m : Z) (n : nat) : list Z := match n with O => [] | S k => m :: zseq (m + 1) k end.
Lemma zseq_in : forall n m x, In x (zseq m n) <-> m <= x < m + Z.of_nat n.
Proof.
  induction n as [|n IH]; intros m x; cbn [zseq In].
  - lia.
  - rewrite IH. lia.
Qed.
Lemma zseq_nodup : forall n m, NoDup (zseq m n).
Proof. induction n; intros; constructor; auto. rewrite zseq_in. lia. Qed.
Lemma zseq_length : forall n m, List.length (zseq m n) = n.
Proof. induction n; intros; cbn; auto. Qed.

Lemma mapAll_effect : forall e l c c' ok, mapAll c e l = (c', ok) ->
  exists nb, bufs c' = bufs c ++ nb /\ map bmap nb = zseq (nextm c) (List.length nb)
    /\ log c' = log c ++ map EvMap (map bmap nb) /\ nextm c' = nextm c + Z.of_nat (List.length nb)
    /\ same c c' /\ (List.length nb <= List.length l)%nat
    /\ (ok = true -> List.length nb = List.length l /\ forall i, In i l -> aQuery e i <> None /\ aMmap e i = true)
    /\ (ok = false -> exists i, In i l /\ ~ (aQuery e i <> None /\ aMmap e i = true)).
Proof.
  intros e. induction l as [|i l IH]; intros c c' ok H; cbn [mapAll] in H.
  - injection H as <- <-. exists []. cbn. rewrite !app_nil_r, Z.add_0_r. unfold same.
    do 6 (split; [first [reflexivity|lia|tauto]|]). split; [|discriminate]. intros _. split; [reflexivity|]. intros i [].
  - destruct (aQuery e i) as [n|] eqn:Q.
    + destruct (aMmap e i) eqn:M.
      * apply IH in H. destruct H as (nb & B & Z1 & Lg & N & Sm & Le & T & F).
        cbn [bufs log nextm takeM say setBufs] in *.
        exists (mkB (nextm c) n :: nb).
        split. { rewrite B, <- app_assoc. reflexivity. }
        split. { cbn [map bmap List.length zseq]. rewrite Z1. reflexivity. }
        split. { rewrite Lg, <- app_assoc. reflexivity. }
        split. { rewrite N. cbn [List.length]. lia. }
        split. { unfold same in *. cbn in Sm. exact Sm. }
        split. { cbn. lia. }
        split.
        { intros E. destruct (T E) as [L1 L2]. split; [cbn; lia|]. intros j [<-|J]; [|auto]. split; [congruence|exact M]. }
        { intros E. destruct (F E) as (j & J & X). exists j. split; [right; exact J|exact X]. }
      * injection H as <- <-. exists []. cbn. rewrite !app_nil_r, Z.add_0_r. unfold same.
        do 6 (split; [first [reflexivity|lia|tauto]|]). split; [discriminate|]. intros _. exists i.
        split; [left; reflexivity|]. intros [_ X]. congruence.
    + injection H as <- <-. exists []. cbn. rewrite !app_nil_r, Z.add_0_r. unfold same.
      do 6 (split; [first [reflexivity|lia|tauto]|]). split; [discriminate|]. intros _. exists i.
      split; [left; reflexivity|]. intros [X _]. congruence.
Qed.

Lemma mapAll_all : forall e l c, (forall i, In i l -> aQuery e i <> None /\ aMmap e i = true) -> exists c', mapAll c e l = (c', true).
Proof.
  intros e l c H. destruct (mapAll c e l) as [c' ok] eqn:E. exists c'. f_equal.
  destruct ok; [reflexivity|]. apply mapAll_effect in E. destruct E as (nb & _ & _ & _ & _ & _ & _ & _ & F).
  destruct (F eq_refl) as (i & I1 & X). destruct (X (H i I1)).
Qed.

Lemma unmapAll_effect : forall e l c c' ok, unmapAll c e l = (c', ok) ->
  exists done rest, l = done ++ rest /\ log c' = log c ++ map EvUnmap (map bmap done)
    /\ same c c' /\ bufs c' = bufs c /\ nextm c' = nextm c
    /\ (ok = true -> rest = []) /\ (ok = false -> exists b t, rest = b :: t /\ aUnmap e (bmap b) = false).
Proof.
  intros e. induction l as [|b l IH]; intros c c' ok H; cbn [unmapAll] in H.
  - injection H as <- <-. exists [], []. cbn. rewrite app_nil_r. unfold same. do 5 (split; [first [reflexivity|tauto]|]). split; [auto|discriminate].
  - destruct (aUnmap e (bmap b)) eqn:U.
    + apply IH in H. destruct H as (d & r & E & Lg & Sm & B & N & T & F). cbn [bufs log nextm say] in *.
      exists (b :: d), r. rewrite E. split; [reflexivity|]. split. { rewrite Lg, <- app_assoc. reflexivity. }
      split; [exact Sm|]. repeat (split; [assumption|]). exact F.
    + injection H as <- <-. exists [], (b :: l). cbn. rewrite app_nil_r. unfold same.
      do 5 (split; [first [reflexivity|tauto]|]). split; [discriminate|]. intros _. exists b, l. tauto.
Qed.

Lemma queueAll_effect : forall e l c c' ok, queueAll c e l = (c', ok) ->
  exists done, log c' = log c ++ map EvQueue done /\ same c c' /\ bufs c' = bufs c /\ nextm c' = nextm c
    /\ (ok = true -> done = l /\ forall i, In i l -> aQbuf e i = true)
    /\ (ok = false -> exists i, In i l /\ aQbuf e i = false).
Proof.
  intros e. induction l as [|i l IH]; intros c c' ok H; cbn [queueAll] in H.
  - injection H as <- <-. exists []. cbn. rewrite app_nil_r. unfold same. do 4 (split; [first [reflexivity|tauto]|]).
    split; [|discriminate]. intros _. split; [reflexivity|]. intros ? [].
  - destruct (aQbuf e i) eqn:U.
    + apply IH in H. destruct H as (d & Lg & Sm & B & N & T & F). cbn [bufs log nextm say] in *.
      exists (i :: d). split. { rewrite Lg, <- app_assoc. reflexivity. }
      split; [exact Sm|]. split; [exact B|]. split; [exact N|]. split.
      { intros E. destruct (T E) as [-> Q]. split; [reflexivity|]. intros j [<-|J]; auto. }
      { intros E. destruct (F E) as (j & J & Q). exists j. split; [right; exact J|exact Q]. }
    + injection H as <- <-. exists []. cbn. rewrite app_nil_r. unfold same. do 4 (split; [first [reflexivity|tauto]|]).
      split; [discriminate|]. intros _. exists i. split; [left; reflexivity|exact U].
Qed.

Lemma opened_maps : forall l h, opened (map EvMap l) h = h.
Proof. induction l; intros; cbn; auto. Qed.
Lemma opened_unmaps : forall l h, opened (map EvUnmap l) h = h.
Proof. induction l; intros; cbn; auto. Qed.
Lemma opened_queues : forall l h, opened (map EvQueue l) h = h.
Proof. induction l; intros; cbn; auto. Qed.
Lemma mapped_maps : forall l h, mapped (map EvMap l) h = h ++ l.
Proof. induction l as [|a l IH]; intros; cbn; [now rewrite app_nil_r|]. rewrite IH, <- app_assoc. reflexivity. Qed.
Lemma mapped_queues : forall l h, mapped (map EvQueue l) h = h.
Proof. induction l; intros; cbn; auto. Qed.
Lemma streaming_maps : forall l h, streaming (map EvMap l) h = h.
Proof. induction l; intros; cbn; auto. Qed.
Lemma streaming_unmaps : forall l h, streaming (map EvUnmap l) h = h.
Proof. induction l; intros; cbn; auto. Qed.
Lemma streaming_queues : forall l h, streaming (map EvQueue l) h = h.
Proof. induction l; intros; cbn; auto. Qed.

Lemma remove_mid : forall (L r : list Z) x, NoDup (L ++ x :: r) -> remove Z.eq_dec x (L ++ x :: r) = L ++ r.
Proof.
  intros L r x N. rewrite remove_app. cbn [remove]. destruct (Z.eq_dec x x) as [_|n]; [|congruence].
  apply NoDup_remove_2 in N. rewrite !notin_remove; [reflexivity| |]; intros I1; apply N, in_or_app; auto.
Qed.
Lemma mapped_unmaps : forall d L r, NoDup (L ++ d ++ r) -> mapped (map EvUnmap d) (L ++ d ++ r) = L ++ r.
Proof.
  induction d as [|x d IH]; intros L r N; cbn [map mapped List.app]; [reflexivity|].
  cbn [List.app] in N. rewrite remove_mid by exact N. apply IH. eapply NoDup_remove_1. exact N.
Qed.

Lemma NoDup_left : forall (a b : list Z), NoDup (a ++ b) -> NoDup a.
Proof.
  induction a as [|x a IH]; intros b H; [constructor|]. cbn in H. inversion H; subst. constructor; [|eauto].
  intros I1. apply H2, in_or_app. auto.
Qed.

Definition live (c : cam) : list mbuf := match st c with SInit | SCapture => bufs c | _ => [] end.
Definition isCapture (s : status) : bool := match s with SCapture => true | _ => false end.
Record inv (c : cam) (L : list Z) : Prop := mkInv {
  i_open : opened (log c) [] = match st c with SClose => [] | _ => [fd c] end;
  i_map : mapped (log c) [] = L ++ map bmap (live c);
  i_nodup : NoDup (L ++ map bmap (live c));
  i_lt : forall m, In m (L ++ map bmap (live c)) -> m < nextm c;
  i_on : streaming (log c) false = isCapture (st c);
  i_two : match st c with SInit | SCapture => (2 <= List.length (bufs c))%nat | _ => True end
}.

Lemma inv0 : inv cam0 [].
Proof. split; cbn; auto; [constructor|contradiction]. Qed.

Lemma inv_force : forall c L b, inv c L -> inv (setForce c b) L.
Proof. intros c L b [A B C D E F]. split; assumption. Qed.
Lemma inv_dur : forall c L b, inv c L -> inv (setDur c b) L.
Proof. intros c L b [A B C D E F]. split; assumption. Qed.
Lemma inv_fmt : forall c L b, inv c L -> inv (setFmt c b) L.
Proof. intros c L b [A B C D E F]. split; assumption. Qed.
Lemma inv_info : forall c L p k, inv c L -> inv (setInfo c p k) L.
Proof. intros c L p k [A B C D E F]. split; assumption. Qed.
Lemma inv_ask : forall c L e, inv c L -> match e with EvFormat _ _ _ | EvRate _ _ => True | _ => False end -> inv (say c e) L.
Proof.
  intros c L e [A B C D E F] H. split; cbn [log say st fd nextm bufs live]; try assumption;
    rewrite ?opened_app, ?mapped_app, ?streaming_app; destruct e; try contradiction; assumption.
Qed.

Lemma close_inv : forall c L, inv c L -> st c = SOpen -> inv (closeDevice c) L /\ st (closeDevice c) = SClose.
Proof.
  intros c L [A B C D E F] H. unfold closeDevice. rewrite H. split; [|reflexivity].
  unfold live in *. rewrite H in *. cbn [map List.app] in *. rewrite app_nil_r in *.
  split; unfold live; cbn [log say st fd nextm bufs setSt setFd map]; rewrite ?app_nil_r;
    rewrite ?opened_app, ?mapped_app, ?streaming_app; auto.
  rewrite A. cbn [opened remove]. destruct (Z.eq_dec (fd c) (fd c)); congruence.
Qed.

Lemma uninit_inv : forall c L e c' ok, inv c L -> st c = SInit -> tidy e -> uninitDevice c e = (c', ok) ->
  ok = true /\ inv c' L /\ st c' = SOpen /\ opix c' = opix c /\ ocodec c' = ocodec c /\ force c' = force c /\ dur c' = dur c.
Proof.
  intros c L e c' ok [A B C D E F] H T U. unfold uninitDevice in U. rewrite H in U.
  destruct (unmapAll c e (bufs c)) as [c1 o] eqn:M. apply unmapAll_effect in M.
  destruct M as (d & r & Eq & Lg & Sm & Bf & N & Tr & Fa).
  destruct o.
  2:{ exfalso. destruct (Fa eq_refl) as (b & t & _ & X). rewrite T in X. discriminate. }
  injection U as <- <-. rewrite (Tr eq_refl), app_nil_r in Eq. subst d. destruct Sm as (S1 & S2 & S3 & S4 & S5 & S6 & S7).
  unfold live in *. rewrite H in *.
  split; [reflexivity|]. split; [|cbn; auto].
  split; unfold live; cbn [log say st fd nextm bufs setSt setFd setBufs setFmt map]; rewrite ?app_nil_r; auto.
  - rewrite Lg, opened_app, opened_unmaps, A, S2. reflexivity.
  - rewrite Lg, mapped_app, B. pose proof (mapped_unmaps (map bmap (bufs c)) L []) as X. rewrite !app_nil_r in X. exact (X C).
  - exact (NoDup_left _ _ C).
  - intros m I1. rewrite N. apply D, in_or_app. auto.
  - rewrite Lg, streaming_app, streaming_unmaps, E. reflexivity.
Qed.

Lemma releaseInit_inv : forall c L e c' ok, inv c L -> st c = SInit -> tidy e -> releaseInit c e = (c', ok) ->
  ok = true /\ inv c' L /\ st c' = SClose.
Proof.
  intros c L e c' ok I0 H T R. unfold releaseInit in R. destruct (uninitDevice c e) as [c1 o] eqn:U.
  destruct (uninit_inv _ _ _ _ _ I0 H T U) as (-> & I1 & H1 & _). injection R as <- <-.
  destruct (close_inv _ _ I1 H1). auto.
Qed.

Lemma stop_inv : forall c L e c' ok, inv c L -> st c = SCapture -> stopCapturing c e = (c', ok) ->
  inv c' L /\ (ok = true -> st c' = SInit /\ aOff e = true) /\ (ok = false -> c' = c /\ aOff e = false)
  /\ opix c' = opix c /\ ocodec c' = ocodec c /\ force c' = force c.
Proof.
  intros c L e c' ok I0 H R. unfold stopCapturing in R. rewrite H in R. destruct (aOff e) eqn:O1; injection R as <- <-.
  - split; [|repeat split; intros; try discriminate; reflexivity].
    destruct I0 as [A B C D E F]. unfold live in *. rewrite H in *.
    split; unfold live; cbn [log say st fd nextm bufs setSt setFd setBufs setFmt]; auto;
      rewrite ?opened_app, ?mapped_app, ?streaming_app; auto.
  - split; [exact I0|]. repeat split; intros; try discriminate; reflexivity.
Qed.

Lemma release_inv : forall c L e c' ok, inv c L -> tidy e -> releaseDevice c e = (c', ok) ->
  inv c' L /\ (ok = true -> st c' = SClose) /\ (ok = false -> c' = c /\ st c = SCapture /\ aOff e = false).
Proof.
  intros c L e c' ok I0 T R. unfold releaseDevice in R. destruct (st c) eqn:H.
  - injection R as <- <-. destruct (close_inv _ _ I0 H) as [X Y]. split; [exact X|]. split; [intros _; exact Y|discriminate].
  - destruct (releaseInit_inv _ _ _ _ _ I0 H T R) as (-> & I1 & H1). split; [exact I1|]. split; [auto|discriminate].
  - destruct (stopCapturing c e) as [c1 o] eqn:S1. destruct (stop_inv _ _ _ _ _ I0 H S1) as (I1 & St & Sf & _).
    destruct o.
    + destruct (releaseInit_inv _ _ _ _ _ I1 (proj1 (St eq_refl)) T R) as (-> & I2 & H1).
      split; [exact I2|]. split; [auto|discriminate].
    + injection R as <- <-. destruct (Sf eq_refl) as [-> O1]. split; [exact I1|]. split; [discriminate|auto].
  - injection R as <- <-. split; [exact I0|]. split; [auto|discriminate].
Qed.

Lemma open_inv : forall c L e name c' ok, inv c L -> st c = SClose -> openDevice c e name = (c', ok) ->
  inv c' L /\ (ok = true -> st c' = SOpen /\ aOpen e = Some (fd c') /\ aFound e = true /\ aChar e = true)
  /\ (ok = false -> st c' = SClose /\ log c' = log c
                    /\ ~ (aFound e = true /\ aChar e = true /\ exists d, aOpen e = Some d))
  /\ force c' = force c /\ ocodec c' = ocodec c /\ dur c' = dur c
  /\ (ok = true -> log c' = log c ++ [EvOpen name (fd c')]).
Proof.
  intros c L e name c' ok I0 H R. unfold openDevice in R. rewrite H in R. destruct I0 as [A B C D E F].
  unfold live in *. rewrite H in *.
  destruct (aFound e && aChar e) eqn:Fo.
  - apply andb_true_iff in Fo. destruct Fo as [F1 F2]. destruct (aOpen e) as [n|] eqn:O1; injection R as <- <-.
    + split; [|cbn; repeat split; intros; try discriminate; auto].
      split; unfold live; cbn [log say st fd nextm bufs setSt setFd setBufs setFmt map]; auto;
      rewrite ?opened_app, ?mapped_app, ?streaming_app; auto. rewrite A. reflexivity.
    + split; [|cbn; repeat split; intros; try discriminate; auto].
      * split; unfold live; cbn [log say st fd nextm bufs setSt setFd setBufs setFmt map]; rewrite ?H; auto.
      * intros (_ & _ & d & X). discriminate.
  - injection R as <- <-. split; [split; unfold live; rewrite ?H; auto|].
    repeat split; intros; try discriminate; auto. intros (X & Y & _). rewrite X, Y in Fo. discriminate.
Qed.

Lemma NoDup_join : forall (a b : list Z), NoDup a -> NoDup b -> (forall x, In x a -> ~ In x b) -> NoDup (a ++ b).
Proof.
  induction a as [|x a IH]; intros b A B H; cbn; [exact B|]. inversion A; subst. constructor.
  - intros I1. apply in_app_or in I1. destruct I1 as [I1|I1]; [contradiction|]. exact (H x (or_introl eq_refl) I1).
  - apply IH; auto. intros y Y. apply H. right. exact Y.
Qed.

Lemma mmap_inv : forall c L e c' ok, inv c L -> st c = SOpen -> init_mmap c e = (c', ok) ->
  same c c' /\ (exists l, log c' = log c ++ map EvMap l) /\
  (ok = true -> inv (setSt c' SInit) L /\ exists n, aReq e = Some n /\ List.length (bufs c') = n /\ (2 <= n)%nat /\ aCalloc e = true
                 /\ forall i, (i < n)%nat -> aQuery e i <> None /\ aMmap e i = true)
  /\ (ok = false -> exists L', inv c' (L ++ L') /\ (mapsWell e -> L' = []) /\
        ~ (exists n, aReq e = Some n /\ (2 <= n)%nat /\ aCalloc e = true /\ forall i, (i < n)%nat -> aQuery e i <> None /\ aMmap e i = true)).
Proof.
  intros c L e c' ok I0 H R.
  assert (Q : forall b, inv (setBufs c b) L).
  { intros b. destruct I0 as [A B C D E F]. split; unfold live in *; cbn [log st fd nextm bufs setBufs]; rewrite H in *; auto. }
  unfold init_mmap in R. destruct (aReq e) as [n|] eqn:Rq.
  2:{ injection R as <- <-. split; [unfold same; tauto|]. split; [exists []; now rewrite app_nil_r|]. split; [discriminate|]. intros _.
      exists []. rewrite app_nil_r. split; [exact I0|]. split; [auto|]. intros (n & X & _). discriminate. }
  destruct (n <? 2)%nat eqn:N2.
  { apply Nat.ltb_lt in N2. injection R as <- <-. split; [unfold same; tauto|]. split; [exists []; now rewrite app_nil_r|]. split; [discriminate|]. intros _.
    exists []. rewrite app_nil_r. split; [exact I0|]. split; [auto|]. intros (k & X & Y & _). injection X as <-. lia. }
  apply Nat.ltb_ge in N2.
  destruct (aCalloc e) eqn:Ca.
  2:{ injection R as <- <-. split; [unfold same; cbn; tauto|]. split; [exists []; cbn; now rewrite app_nil_r|]. split; [discriminate|]. intros _.
      exists []. rewrite app_nil_r. split; [apply Q|]. split; [auto|]. intros (k & X & Y & Z0 & _). congruence. }
  apply mapAll_effect in R. destruct R as (nb & B1 & Z1 & Lg & Nx & Sm & Le & Tr & Fa).
  cbn [bufs log nextm setBufs] in *. rewrite seq_length in *. cbn [List.app] in B1.
  split. { unfold same in *. cbn in Sm. exact Sm. }
  split. { exists (map bmap nb). exact Lg. }
  destruct I0 as [A B C D E F]. unfold live in A, B, C, D, E, F. rewrite H in *. cbn [map] in *. rewrite app_nil_r in *.
  assert (ND : NoDup (L ++ map bmap nb)).
  { apply NoDup_join; [exact C|rewrite Z1; apply zseq_nodup|]. intros x X. rewrite Z1, zseq_in. specialize (D x X). lia. }
  assert (LT : forall m, In m (L ++ map bmap nb) -> m < nextm c').
  { intros m M. apply in_app_or in M. destruct M as [M|M].
    - specialize (D m M). lia.
    - rewrite Z1, zseq_in in M. lia. }
  assert (Sst : st c' = SOpen). { destruct Sm as [X _]. cbn in X. congruence. }
  assert (Sfd : fd c' = fd c). { destruct Sm as (_ & X & _). exact X. }
  split.
  - intros ->. destruct (Tr eq_refl) as [L1 L2]. split.
    + split; unfold live; cbn [st setSt bufs log fd nextm]; auto; rewrite ?Lg, ?opened_app, ?mapped_app, ?streaming_app.
      * rewrite opened_maps, A, Sfd. reflexivity.
      * rewrite mapped_maps, B, B1. reflexivity.
      * rewrite B1. exact ND.
      * rewrite B1. exact LT.
      * rewrite streaming_maps. exact E.
      * rewrite B1. lia.
    + exists n. rewrite B1, L1. repeat (split; [first [reflexivity|assumption]|]). intros i I1. apply L2, in_seq. lia.
  - intros ->. destruct (Fa eq_refl) as (i & I1 & X). exists (map bmap nb). split; [|split].
    + split; unfold live; cbn [st bufs log fd nextm]; rewrite ?Sst; cbn [map]; rewrite ?app_nil_r; auto;
        rewrite ?Lg, ?opened_app, ?mapped_app, ?streaming_app.
      * rewrite opened_maps, A, Sfd. reflexivity.
      * rewrite mapped_maps, B. reflexivity.
      * rewrite streaming_maps. exact E.
    + intros M. exfalso. apply X. apply in_seq in I1. exact (M n i Rq ltac:(lia)).
    + intros (k & Y & _ & _ & Al). injection Y as <-. apply in_seq in I1. apply X, Al. lia.
Qed.

Lemma pix_of_inform : forall c f, opix (inform c f) = pixelType f /\ ocodec (inform c f) = match pixelType f with P_NONE => codecType f | _ => ocodec c end.
Proof. intros. unfold inform. destruct f; split; reflexivity. Qed.
Lemma inform_inv : forall c L f, inv c L -> inv (inform c f) L.
Proof. intros c L f H. unfold inform. destruct (pixelType f); now apply inv_info. Qed.
Lemma inform_same : forall c f, st (inform c f) = st c /\ fd (inform c f) = fd c /\ fmt (inform c f) = fmt c /\ force (inform c f) = force c
  /\ dur (inform c f) = dur c /\ log (inform c f) = log c.
Proof. intros. unfold inform. destruct (pixelType f); cbn; tauto. Qed.

(* what initDevice has learnt *)
Lemma init_inv : forall c L e w h fps format c' ok den, inv c L -> st c = SOpen ->
  initDevice c e w h fps format = (c', ok, den) ->
  (ok = true -> inv c' L /\ st c' = SInit /\ fd c' = fd c /\ exists f num n,
       aCap e = true /\ aVideo e = true /\ aStream e = true
       /\ (if force c then aSet e w h (wanted format) else aGet e) = Some f
       /\ aParm e fps = Some (num, den) /\ aReq e = Some n /\ (2 <= n)%nat /\ aCalloc e = true
       /\ (forall i, (i < n)%nat -> aQuery e i <> None /\ aMmap e i = true)
       /\ List.length (bufs c') = n /\ fmt c' = f /\ opix c' = pixelType (ff f)
       /\ ocodec c' = match pixelType (ff f) with P_NONE => codecType (ff f) | _ => ocodec c end)
  /\ (ok = false -> st c' = SOpen /\ (exists L', inv c' (L ++ L') /\ (mapsWell e -> L' = [])) /\
       ~ (exists f num d n,
       aCap e = true /\ aVideo e = true /\ aStream e = true
       /\ (if force c then aSet e w h (wanted format) else aGet e) = Some f
       /\ aParm e fps = Some (num, d) /\ aReq e = Some n /\ (2 <= n)%nat /\ aCalloc e = true
       /\ (forall i, (i < n)%nat -> aQuery e i <> None /\ aMmap e i = true)))
  /\ exists pre l, log c' = log c ++ pre ++ map EvMap l
       /\ (pre = [] \/ pre = (if force c then [EvFormat w h (wanted format)] else [])
           \/ pre = (if force c then [EvFormat w h (wanted format)] else []) ++ [EvRate 1 fps]).
Proof.
  intros c L e w h fps format c' ok den I0 H R. unfold initDevice in R. rewrite H in R.
  destruct (aCap e && aVideo e && aStream e) eqn:Cp.
  2:{ injection R as <- <- <-. split; [discriminate|]. split.
      - intros _. split; [exact H|]. split; [exists []; rewrite app_nil_r; auto|]. intros (f & nu & d & n & X & Y & Z0 & _).
        rewrite X, Y, Z0 in Cp. discriminate.
      - exists [], []. cbn. rewrite app_nil_r. auto. }
  apply andb_true_iff in Cp. destruct Cp as [Cp C3]. apply andb_true_iff in Cp. destruct Cp as [C1 C2].
  set (r := askFormat c e w h format) in *.
  assert (Q : inv (fst r) L /\ st (fst r) = SOpen /\ fd (fst r) = fd c /\ ocodec (fst r) = ocodec c
           /\ snd r = (if force c then aSet e w h (wanted format) else aGet e)
           /\ log (fst r) = log c ++ (if force c then [EvFormat w h (wanted format)] else [])).
  { unfold r, askFormat. rewrite wanted_eq. destruct (force c); cbn [fst snd].
    - repeat (split; [first [assumption|reflexivity|now apply inv_ask]|]). reflexivity.
    - rewrite app_nil_r. repeat (split; [first [assumption|reflexivity]|]). reflexivity. }
  destruct r as [c1 got]. cbn [fst snd] in Q. destruct Q as (I1 & H1 & F1 & K1 & G1 & L1).
  destruct got as [f|].
  2:{ injection R as <- <- <-. split; [discriminate|]. split.
      - intros _. split; [exact H1|]. split; [exists []; rewrite app_nil_r; split; [now apply inv_fmt|auto]|].
        intros (f & nu & d & n & _ & _ & _ & X & _). congruence.
      - exists (if force c then [EvFormat w h (wanted format)] else []), []. cbn [map log setFmt]. rewrite app_nil_r. auto. }
  set (c2 := say (inform (setFmt c1 f) (ff f)) (EvRate 1 fps)) in *.
  assert (I2 : inv c2 L). { apply inv_ask; [|exact Logic.I]. apply inform_inv, inv_fmt, I1. }
  destruct (inform_same (setFmt c1 f) (ff f)) as (S1 & S2 & S3 & S4 & S5 & S6).
  destruct (pix_of_inform (setFmt c1 f) (ff f)) as (P1 & P2).
  assert (H2 : st c2 = SOpen). { unfold c2. cbn [st say]. rewrite S1. exact H1. }
  assert (L2 : log c2 = log c ++ (if force c then [EvFormat w h (wanted format)] else []) ++ [EvRate 1 fps]).
  { unfold c2. cbn [log say]. rewrite S6. cbn [log setFmt]. rewrite L1, app_assoc. reflexivity. }
  destruct (aParm e fps) as [[nu d]|] eqn:Pm.
  2:{ injection R as <- <- <-. split; [discriminate|]. split.
      - intros _. split; [exact H2|]. split; [exists []; rewrite app_nil_r; split; [exact I2|auto]|].
        intros (f' & nu & d & n & _ & _ & _ & _ & X & _). congruence.
      - exists ((if force c then [EvFormat w h (wanted format)] else []) ++ [EvRate 1 fps]), []. cbn [map]. rewrite app_nil_r.
        split; [exact L2|auto]. }
  destruct (init_mmap c2 e) as [c3 o] eqn:Mm.
  destruct (mmap_inv _ _ _ _ _ I2 H2 Mm) as (Sm & (lm & Lm) & Tr & Fa).
  destruct Sm as (T1 & T2 & T3 & T4 & T5 & T6 & T7).
  assert (LL : log c3 = log c ++ ((if force c then [EvFormat w h (wanted format)] else []) ++ [EvRate 1 fps]) ++ map EvMap lm).
  { rewrite Lm, L2, <- app_assoc. reflexivity. }
  destruct o; injection R as <- <- <-.
  - split; [|split].
    + intros _. destruct (Tr eq_refl) as (I3 & n & N1 & N2 & N3 & N4 & N5). split; [exact I3|]. split; [reflexivity|]. split.
      { cbn [fd setSt]. rewrite T2. unfold c2. cbn [fd say]. rewrite S2. exact F1. }
      exists f, nu, n. cbn [bufs fmt opix ocodec setSt].
      repeat (split; [assumption || (symmetry; assumption) || reflexivity|]). split.
      { rewrite T3. unfold c2. cbn [fmt say]. rewrite S3. reflexivity. } split.
      { rewrite T4. unfold c2. cbn [opix say]. exact P1. }
      { rewrite T5. unfold c2. cbn [ocodec say]. rewrite P2. cbn [ocodec setFmt]. rewrite K1. reflexivity. }
    + discriminate.
    + eexists _, lm. split; [exact LL|]. auto.
  - split; [discriminate|]. split.
    + intros _. destruct (Fa eq_refl) as (L' & I3 & MW & X). split; [congruence|]. split; [exists L'; auto|].
      intros (f' & nu' & d' & n & _ & _ & _ & _ & _ & Y1 & Y2 & Y3 & Y4). apply X. exists n. auto.
    + eexists _, lm. split; [exact LL|]. auto.
Qed.

Lemma start_inv : forall c L e c' ok, inv c L -> st c = SInit -> startCapturing c e = (c', ok) ->
  inv c' L /\ bufs c' = bufs c /\ fmt c' = fmt c /\ opix c' = opix c /\ ocodec c' = ocodec c /\ fd c' = fd c
  /\ (ok = true -> st c' = SCapture /\ aOn e = true /\ forall i, (i < List.length (bufs c))%nat -> aQbuf e i = true)
  /\ (ok = false -> st c' = SInit /\ ~ (aOn e = true /\ forall i, (i < List.length (bufs c))%nat -> aQbuf e i = true))
  /\ exists l, log c' = log c ++ map EvQueue l ++ (if ok then [EvOn] else []).
Proof.
  intros c L e c' ok I0 H R. unfold startCapturing in R. rewrite H in R.
  destruct (queueAll c e (seq 0 (List.length (bufs c)))) as [c1 o] eqn:Q. apply queueAll_effect in Q.
  destruct Q as (d & Lg & Sm & B & N & Tr & Fa). destruct Sm as (S1 & S2 & S3 & S4 & S5 & S6 & S7).
  assert (I1 : inv c1 L).
  { destruct I0 as [A0 B0 C0 D0 E0 F0]. unfold live in *. rewrite H in *.
    split; unfold live; rewrite ?S1, ?H, ?Lg, ?B, ?N, ?S2; auto; rewrite ?opened_app, ?mapped_app, ?streaming_app.
    - rewrite opened_queues. exact A0.
    - rewrite mapped_queues. exact B0.
    - rewrite streaming_queues. exact E0. }
  destruct o; [destruct (aOn e) eqn:O1|]; injection R as <- <-.
  - split; [|cbn [bufs fmt opix ocodec fd setSt say]].
    + destruct I1 as [A0 B0 C0 D0 E0 F0]. unfold live in *. rewrite S1, H in *.
      split; unfold live; cbn [st setSt bufs log fd nextm say]; auto; rewrite ?opened_app, ?mapped_app, ?streaming_app; auto.
    + repeat (split; [assumption|]). split; [|split].
      * intros _. repeat (split; [reflexivity|]). intros i Li. apply (proj2 (Tr eq_refl)). apply in_seq. lia.
      * discriminate.
      * exists d. cbn [log setSt say]. rewrite Lg, <- app_assoc. reflexivity.
  - split; [exact I1|]. repeat (split; [assumption|]). split; [discriminate|]. split.
    + intros _. split; [congruence|]. intros [X _]. congruence.
    + exists d. rewrite app_nil_r. exact Lg.
  - split; [exact I1|]. repeat (split; [assumption|]). split; [discriminate|]. split.
    + intros _. split; [congruence|]. intros [_ X]. destruct (Fa eq_refl) as (i & Ii & Y). apply in_seq in Ii.
      rewrite X in Y by lia. discriminate.
    + exists d. rewrite app_nil_r. exact Lg.
Qed.

Lemma release_init_closed : forall c L e, inv c L -> (st c = SInit \/ st c = SOpen) -> tidy e ->
  inv (fst (releaseDevice c e)) L /\ st (fst (releaseDevice c e)) = SClose.
Proof.
  intros c L e I0 H T. destruct (releaseDevice c e) as [c' ok] eqn:R. cbn [fst].
  destruct (release_inv _ _ _ _ _ I0 T R) as (I1 & A & B). split; [exact I1|].
  destruct ok; [auto|]. destruct (B eq_refl) as (_ & X & _). destruct H; congruence.
Qed.

Lemma fromInit_inv : forall c L e fps, inv c L -> st c = SInit -> tidy e ->
  match fromInit c e fps with
  | Crash => fps = 0 /\ aOn e = true /\ forall i, (i < List.length (bufs c))%nat -> aQbuf e i = true
  | Ret c' true => inv c' L /\ st c' = SCapture /\ bufs c' = bufs c /\ fmt c' = fmt c /\ opix c' = opix c /\ ocodec c' = ocodec c
                   /\ fd c' = fd c /\ fps <> 0 /\ dur c' = 1000000 / fps
                   /\ aOn e = true /\ forall i, (i < List.length (bufs c))%nat -> aQbuf e i = true
  | Ret c' false => inv c' L /\ st c' = SClose /\ ~ (aOn e = true /\ forall i, (i < List.length (bufs c))%nat -> aQbuf e i = true)
  end.
Proof.
  intros c L e fps I0 H T. unfold fromInit. destruct (startCapturing c e) as [c1 ok] eqn:S1.
  destruct (start_inv _ _ _ _ _ I0 H S1) as (I1 & B & F & P & K & D & Tr & Fa & _).
  destruct ok.
  - destruct (Tr eq_refl) as (H1 & O1 & Q1). unfold finish. destruct (fps =? 0) eqn:Z0.
    + apply Z.eqb_eq in Z0. auto.
    + apply Z.eqb_neq in Z0. split; [now apply inv_dur|]. repeat (split; [first [assumption|reflexivity]|]). assumption.
  - destruct (Fa eq_refl) as (H1 & X). destruct (release_init_closed c1 L e I1 (or_introl H1) T). auto.
Qed.

Definition ready (c : cam) (e : env) (w h fps : Z) (format : string) (f : pixfmt) (num den : Z) (n : nat) : Prop :=
  (aCap e = true /\ aVideo e = true /\ aStream e = true)
  /\ (if force c then aSet e w h (wanted format) else aGet e) = Some f
  /\ aParm e fps = Some (num, den) /\ (aReq e = Some n /\ (2 <= n)%nat /\ aCalloc e = true)
  /\ (forall i, (i < n)%nat -> aQuery e i <> None /\ aMmap e i = true)
  /\ (forall i, (i < n)%nat -> aQbuf e i = true) /\ aOn e = true.

Lemma fromOpen_inv : forall c L e w h fps format, inv c L -> st c = SOpen -> tidy e ->
  match fromOpen c e w h fps format with
  | Crash => exists f num n, ready c e w h fps format f num 0 n
  | Ret c' true => exists f num den n, ready c e w h fps format f num den n /\ den <> 0
       /\ inv c' L /\ st c' = SCapture /\ List.length (bufs c') = n /\ fmt c' = f /\ opix c' = pixelType (ff f)
       /\ ocodec c' = match pixelType (ff f) with P_NONE => codecType (ff f) | _ => ocodec c end
       /\ fd c' = fd c /\ dur c' = 1000000 / den
  | Ret c' false => st c' = SClose /\ (exists L', inv c' (L ++ L') /\ (mapsWell e -> L' = []))
       /\ ~ (exists f num den n, ready c e w h fps format f num den n)
  end.
Proof.
  intros c L e w h fps format I0 H T. unfold fromOpen.
  destruct (initDevice c e w h fps format) as [[c1 ok] den] eqn:In1.
  destruct (init_inv _ _ _ _ _ _ _ _ _ _ I0 H In1) as (Tr & Fa & _).
  destruct ok.
  - destruct (Tr eq_refl) as (I1 & H1 & D1 & f & num & n & C1 & C2 & C3 & G & Pm & Rq & N2 & Ca & Mp & Ln & Fm & Px & Kd).
    pose proof (fromInit_inv c1 L e den I1 H1 T) as X. destruct (fromInit c1 e den) as [|c' [|]].
    + destruct X as (-> & O1 & Q1). exists f, num, n. unfold ready. rewrite Ln in Q1. repeat split; try assumption; apply Mp; assumption.
    + destruct X as (I2 & H2 & B & F & P & K & D & NZ & Du & O1 & Q1). exists f, num, den, n. rewrite Ln in Q1.
      split. { unfold ready. repeat split; try assumption; apply Mp; assumption. }
      split; [exact NZ|]. split; [exact I2|]. split; [exact H2|]. rewrite B, F, P, K, D. auto 10.
    + destruct X as (I2 & H2 & X). split; [exact H2|]. split; [exists []; rewrite app_nil_r; auto|].
      intros (f' & nu & d & n' & (_ & _ & _ & (Y & _) & _ & Y1 & Y2)). apply X. split; [exact Y2|]. rewrite Ln.
      assert (n' = n) by congruence. subst n'. exact Y1.
  - destruct (Fa eq_refl) as (H1 & (L' & I1 & MW) & X).
    destruct (release_init_closed c1 _ e I1 (or_intror H1) T) as (I2 & H2). split; [exact H2|]. split; [exists L'; auto|].
    intros (f & nu & d & n & ((A1 & A2 & A3) & G & Pm & (R1 & R2 & R3) & Mp & _)). apply X. exists f, nu, d, n. auto 12.
Qed.

Lemma ready_grants : forall c e w h fps format f num den n d, ready c e w h fps format f num den n ->
  aFound e = true -> aChar e = true -> aOpen e = Some d -> grants e w h fps format (force c) d f num den n.
Proof. intros c e w h fps format f num den n d (A & B & C & D & E & F & G) X Y Z0. split; auto. Qed.
Lemma grants_ready : forall c e w h fps format f num den n d, grants e w h fps format (force c) d f num den n ->
  ready c e w h fps format f num den n.
Proof.
  intros c e w h fps format f num den n d [A B C D E F G H]. unfold ready.
  split; [exact B|]. split; [exact C|]. split; [exact D|]. split; [exact E|]. auto.
Qed.

(* configure from rest *)
Lemma configure_closed : forall c L e name w h fps format forced, inv c L -> st c = SClose -> tidy e ->
  match configure c e name w h fps format forced with
  | Crash => exists d f num n, grants e w h fps format forced d f num 0 n
  | Ret c' true => exists d f num den n, grants e w h fps format forced d f num den n /\ den <> 0
       /\ inv c' L /\ st c' = SCapture /\ fd c' = d /\ List.length (bufs c') = n /\ fmt c' = f /\ opix c' = pixelType (ff f)
       /\ ocodec c' = match pixelType (ff f) with P_NONE => codecType (ff f) | _ => ocodec c end
       /\ dur c' = 1000000 / den
  | Ret c' false => st c' = SClose /\ (exists L', inv c' (L ++ L') /\ (mapsWell e -> L' = []))
       /\ ~ (exists d f num den n, grants e w h fps format forced d f num den n)
  end.
Proof.
  intros c L e name w h fps format forced I0 H T. unfold configure. cbn [st setForce]. rewrite H.
  destruct (openDevice (setForce c forced) e name) as [c1 ok] eqn:Op.
  destruct (open_inv _ _ _ _ _ _ (inv_force _ _ forced I0) H Op) as (I1 & Tr & Fa & Fc & Kc & _).
  cbn [force setForce] in Fc. destruct ok.
  - destruct (Tr eq_refl) as (H1 & O1 & F1 & F2). pose proof (fromOpen_inv c1 L e w h fps format I1 H1 T) as X.
    destruct (fromOpen c1 e w h fps format) as [|c' [|]].
    + destruct X as (f & num & n & X). exists (fd c1), f, num, n. rewrite <- Fc. now apply ready_grants.
    + destruct X as (f & num & den & n & X & NZ & I2 & H2 & Ln & Fm & Px & Kd & D & Du).
      exists (fd c1), f, num, den, n. split; [rewrite <- Fc; now apply ready_grants|].
      rewrite Kc in Kd. cbn [ocodec setForce] in Kd. auto 12.
    + destruct X as (H2 & Lk & X). split; [exact H2|]. split; [exact Lk|].
      intros (d & f & num & den & n & G). apply X. exists f, num, den, n. rewrite <- Fc in G. eapply grants_ready; exact G.
  - destruct (Fa eq_refl) as (H1 & _ & X). split; [exact H1|]. split; [exists []; rewrite app_nil_r; auto|].
    intros (d & f & num & den & n & G). apply X. destruct (g_there _ _ _ _ _ _ _ _ _ _ _ G) as (A & B & C). eauto.
Qed.

Lemma configure_capture : forall c L e name w h fps format forced, inv c L -> st c = SCapture -> tidy e ->
  match configure c e name w h fps format forced with
  | Crash => True
  | Ret c' true => inv c' L /\ st c' = SCapture
  | Ret c' false => st c' = SClose /\ exists L', inv c' (L ++ L') /\ (mapsWell e -> L' = [])
  end.
Proof.
  intros c L e name w h fps format forced I0 H T. unfold configure. cbn [st setForce]. rewrite H.
  destruct (stopCapturing (setForce c forced) e) as [c1 ok] eqn:Sp.
  destruct (stop_inv _ _ _ _ _ (inv_force _ _ forced I0) H Sp) as (I1 & Tr & Fa & _).
  destruct ok.
  - destruct (uninitDevice c1 e) as [c2 o2] eqn:U. destruct (uninit_inv _ _ _ _ _ I1 (proj1 (Tr eq_refl)) T U) as (-> & I2 & H2 & _).
    pose proof (fromOpen_inv (setForce c2 true) L e w h (if forced then 1 else 0) "YUYV" (inv_force _ _ true I2) H2 T) as X.
    destruct (fromOpen (setForce c2 true) e w h (if forced then 1 else 0) "YUYV") as [|c' [|]]; [exact Logic.I| |].
    + destruct X as (f & num & den & n & _ & _ & I3 & H3 & _). auto.
    + destruct X as (H3 & X & _). auto.
  - destruct (Fa eq_refl) as [-> _]. unfold finish. destruct (fps =? 0); [exact Logic.I|]. split; [now apply inv_dur|exact H].
Qed.

Lemma run1_inv : forall c L k c', inv c L -> (st c = SClose \/ st c = SCapture) -> tidy (callEnv k) -> run1 c k = Some c' ->
  (st c' = SClose \/ st c' = SCapture) /\ exists L', inv c' (L ++ L') /\ (mapsWell (callEnv k) -> L' = []).
Proof.
  intros c L k c' I0 H T R. destruct k as [e name w h fps format forced|e]; cbn [run1 callEnv] in *.
  - destruct H as [H|H].
    + pose proof (configure_closed c L e name w h fps format forced I0 H T) as X.
      destruct (configure c e name w h fps format forced) as [|x ok]; [discriminate|]. injection R as ->. destruct ok.
      * destruct X as (d & f & nu & den & n & _ & _ & I1 & H1 & _). split; [auto|]. exists []. rewrite app_nil_r. auto.
      * destruct X as (H1 & X & _). auto.
    + pose proof (configure_capture c L e name w h fps format forced I0 H T) as X.
      destruct (configure c e name w h fps format forced) as [|x ok]; [discriminate|]. injection R as ->. destruct ok.
      * destruct X as [I1 H1]. split; [auto|]. exists []. rewrite app_nil_r. auto.
      * destruct X as [H1 X]. auto.
  - injection R as <-. destruct (releaseDevice c e) as [c1 ok] eqn:Rl. cbn [fst].
    destruct (release_inv _ _ _ _ _ I0 T Rl) as (I1 & A & B). split.
    + destruct ok; [auto|]. destruct (B eq_refl) as (-> & _). exact H.
    + exists []. rewrite app_nil_r. auto.
Qed.

Lemma run_inv : forall l c L c', inv c L -> (st c = SClose \/ st c = SCapture) -> (forall k, In k l -> tidy (callEnv k)) -> run c l = Some c' ->
  (st c' = SClose \/ st c' = SCapture) /\ exists L', inv c' (L ++ L') /\ ((forall k, In k l -> mapsWell (callEnv k)) -> L' = []).
Proof.
  induction l as [|k l IH]; intros c L c' I0 H T R; cbn [run] in R.
  - injection R as <-. split; [exact H|]. exists []. rewrite app_nil_r. auto.
  - destruct (run1 c k) as [c1|] eqn:R1; [|discriminate].
    destruct (run1_inv _ _ _ _ I0 H (T k (or_introl eq_refl)) R1) as (H1 & L1 & I1 & W1).
    destruct (IH c1 _ c' I1 H1 (fun x X => T x (or_intror X)) R) as (H2 & L2 & I2 & W2). split; [exact H2|].
    exists (L1 ++ L2). rewrite app_assoc. split; [exact I2|]. intros W. rewrite W1, W2; [reflexivity| |]; intros; apply W; cbn; auto.
Qed.

(* Reconfiguring while capturing *)
Definition asksRate (e : ev) : option Z := match e with EvRate _ d => Some d | _ => None end.

Lemma in_map_ev : forall (g : Z -> ev) l e, In e (map g l) -> exists z, e = g z.
Proof. intros g l e H. apply in_map_iff in H. destruct H as (z & <- & _). eauto. Qed.
Lemma in_map_evn : forall (g : nat -> ev) l e, In e (map g l) -> exists z, e = g z.
Proof. intros g l e H. apply in_map_iff in H. destruct H as (z & <- & _). eauto. Qed.

Definition quiet (e : ev) : Prop :=
  match e with EvFormat _ _ _ | EvRate _ _ | EvOpen _ _ => False | _ => True end.

Lemma unmapAll_log : forall e l c, exists x, log (fst (unmapAll c e l)) = log c ++ x /\ forall y, In y x -> quiet y.
Proof.
  intros e l c. destruct (unmapAll c e l) as [c' ok] eqn:U. apply unmapAll_effect in U.
  destruct U as (d & r & _ & Lg & _). exists (map EvUnmap (map bmap d)). cbn. split; [exact Lg|]. intros y Y.
  apply in_map_ev in Y. destruct Y as (z & ->). exact Logic.I.
Qed.
Lemma uninit_log : forall c e, exists x, log (fst (uninitDevice c e)) = log c ++ x /\ forall y, In y x -> quiet y.
Proof.
  intros c e. unfold uninitDevice. destruct (st c); try (exists []; rewrite app_nil_r; split; [reflexivity|intros ? []]; fail).
  destruct (unmapAll_log e (bufs c) c) as (x & X & Q). destruct (unmapAll c e (bufs c)) as [c1 ok]. cbn [fst] in X.
  exists x. destruct ok; cbn [fst log setSt setBufs setFmt]; auto.
Qed.
Lemma close_log : forall c, exists x, log (closeDevice c) = log c ++ x /\ forall y, In y x -> quiet y.
Proof.
  intros c. unfold closeDevice. destruct (st c); try (exists []; rewrite app_nil_r; split; [reflexivity|intros ? []]; fail).
  exists [EvClose (fd c)]. split; [reflexivity|]. intros y [<-|[]]. exact Logic.I.
Qed.
Lemma stop_log : forall c e, exists x, log (fst (stopCapturing c e)) = log c ++ x /\ forall y, In y x -> quiet y.
Proof.
  intros c e. unfold stopCapturing. destruct (st c); try (exists []; rewrite app_nil_r; split; [reflexivity|intros ? []]; fail).
  destruct (aOff e); [|exists []; rewrite app_nil_r; split; [reflexivity|intros ? []]].
  exists [EvOff]. split; [reflexivity|]. intros y [<-|[]]. exact Logic.I.
Qed.
Lemma releaseInit_log : forall c e, exists x, log (fst (releaseInit c e)) = log c ++ x /\ forall y, In y x -> quiet y.
Proof.
  intros c e. unfold releaseInit. destruct (uninit_log c e) as (x & X & Q). destruct (uninitDevice c e) as [c1 ok]. cbn [fst] in X.
  destruct ok; cbn [fst]; [|eauto]. destruct (close_log c1) as (y & Y & Q2). exists (x ++ y). rewrite Y, X, app_assoc. split; [reflexivity|].
  intros z Z0. apply in_app_or in Z0. destruct Z0; auto.
Qed.
Lemma release_log : forall c e, exists x, log (fst (releaseDevice c e)) = log c ++ x /\ forall y, In y x -> quiet y.
Proof.
  intros c e. unfold releaseDevice. destruct (st c).
  - apply close_log.
  - apply releaseInit_log.
  - destruct (stop_log c e) as (x & X & Q). destruct (stopCapturing c e) as [c1 ok]. cbn [fst] in X. destruct ok; cbn [fst]; [|eauto].
    destruct (releaseInit_log c1 e) as (y & Y & Q2). exists (x ++ y). rewrite Y, X, app_assoc. split; [reflexivity|].
    intros z Z0. apply in_app_or in Z0. destruct Z0; auto.
  - exists []. rewrite app_nil_r. split; [reflexivity|intros ? []].
Qed.
Lemma start_log : forall c e, exists x, log (fst (startCapturing c e)) = log c ++ x /\ forall y, In y x -> quiet y.
Proof.
  intros c e. unfold startCapturing. destruct (st c); try (exists []; rewrite app_nil_r; split; [reflexivity|intros ? []]; fail).
  destruct (queueAll c e (seq 0 (List.length (bufs c)))) as [c1 o] eqn:Q. apply queueAll_effect in Q. destruct Q as (d & Lg & _).
  assert (Qd : forall y, In y (map EvQueue d) -> quiet y). { intros y Y. apply in_map_evn in Y. destruct Y as (z & ->). exact Logic.I. }
  destruct o; [destruct (aOn e)|]; cbn [fst].
  - exists (map EvQueue d ++ [EvOn]). cbn [log setSt say]. rewrite Lg, app_assoc. split; [reflexivity|].
    intros y Y. apply in_app_or in Y. destruct Y as [Y|[<-|[]]]; [auto|exact Logic.I].
  - exists (map EvQueue d). auto.
  - exists (map EvQueue d). auto.
Qed.
Lemma fromInit_log : forall c e fps c' ok, fromInit c e fps = Ret c' ok -> exists x, log c' = log c ++ x /\ forall y, In y x -> quiet y.
Proof.
  intros c e fps c' ok H. unfold fromInit in H. destruct (start_log c e) as (x & X & Q). destruct (startCapturing c e) as [c1 o].
  cbn [fst] in X. destruct o.
  - unfold finish in H. destruct (fps =? 0); [discriminate|]. injection H as <- _. exists x. auto.
  - injection H as <- _. destruct (release_log c1 e) as (y & Y & Q2). exists (x ++ y). rewrite Y, X, app_assoc. split; [reflexivity|].
    intros z Z0. apply in_app_or in Z0. destruct Z0; auto.
Qed.

Lemma fromOpen_log : forall c e w h fps format c' ok L, inv c L -> st c = SOpen -> force c = true ->
  fromOpen c e w h fps format = Ret c' ok ->
  exists x, log c' = log c ++ x /\ forall y, In y x ->
    match y with EvFormat w' h' f => w' = w /\ h' = h /\ f = wanted format | EvRate n d => n = 1 /\ d = fps | EvOpen _ _ => False | _ => True end.
Proof.
  intros c e w h fps format c' ok L I0 H Fc R. unfold fromOpen in R.
  destruct (initDevice c e w h fps format) as [[c1 o] den] eqn:In1.
  destruct (init_inv _ _ _ _ _ _ _ _ _ _ I0 H In1) as (_ & _ & pre & lm & Lg & Pr). rewrite Fc in Pr.
  assert (Q1 : forall y, In y (pre ++ map EvMap lm) -> match y with EvFormat w' h' f => w' = w /\ h' = h /\ f = wanted format | EvRate n d => n = 1 /\ d = fps | EvOpen _ _ => False | _ => True end).
  { intros y Y. apply in_app_or in Y. destruct Y as [Y|Y].
    - destruct Pr as [-> | [-> | ->]]; cbn in Y.
      + destruct Y.
      + destruct Y as [<-|[]]. auto.
      + destruct Y as [<-|[<-|[]]]; auto.
    - apply in_map_ev in Y. destruct Y as (z & ->). exact Logic.I. }
  assert (Q2 : exists x, log c' = log c1 ++ x /\ forall y, In y x -> quiet y).
  { destruct o.
    - eapply fromInit_log; exact R.
    - injection R as <- _. apply release_log. }
  destruct Q2 as (x & X & Qx). exists ((pre ++ map EvMap lm) ++ x). rewrite X, Lg, !app_assoc. split; [reflexivity|].
  intros y Y. apply in_app_or in Y. destruct Y as [Y|Y]; [exact (Q1 y Y)|]. specialize (Qx y Y). destruct y; cbn in Qx; tauto.
Qed.

Lemma reconfigure_log : forall c L e name w h fps format forced c' ok, inv c L -> st c = SCapture -> tidy e ->
  configure c e name w h fps format forced = Ret c' ok ->
  exists x, log c' = log c ++ x /\ forall y, In y x ->
    match y with
    | EvFormat w' h' f => w' = w /\ h' = h /\ f = FYuyv
    | EvRate n d => n = 1 /\ d = (if forced then 1 else 0)
    | EvOpen _ _ => False
    | _ => True
    end.
Proof.
  intros c L e name w h fps format forced c' ok I0 H T R. unfold configure in R. cbn [st setForce] in R. rewrite H in R.
  destruct (stop_log (setForce c forced) e) as (x & X & Qx).
  destruct (stopCapturing (setForce c forced) e) as [c1 o] eqn:Sp.
  destruct (stop_inv _ _ _ _ _ (inv_force _ _ forced I0) H Sp) as (I1 & Tr & Fa & _). cbn [fst log setForce] in X.
  assert (Qq : forall z y, quiet y -> match y with EvFormat w' h' f => w' = w /\ h' = h /\ f = FYuyv
    | EvRate n d => n = 1 /\ d = z | EvOpen _ _ => False | _ => True end) by (intros z y; destruct y; cbn; tauto).
  destruct o.
  - destruct (uninit_log c1 e) as (y & Y & Qy). destruct (uninitDevice c1 e) as [c2 o2] eqn:U.
    destruct (uninit_inv _ _ _ _ _ I1 (proj1 (Tr eq_refl)) T U) as (-> & I2 & H2 & _). cbn [fst] in Y.
    destruct (fromOpen_log (setForce c2 true) e w h (if forced then 1 else 0) "YUYV" c' ok L (inv_force _ _ true I2) H2 eq_refl R) as (z & Z0 & Qz).
    cbn [log setForce] in Z0. exists (x ++ y ++ z). rewrite Z0, Y, X. split; [now rewrite !app_assoc|].
    intros v V. apply in_app_or in V. destruct V as [V|V]; [apply Qq, Qx, V|].
    apply in_app_or in V. destruct V as [V|V]; [apply Qq, Qy, V|]. exact (Qz v V).
  - unfold finish in R. destruct (fps =? 0); [discriminate|]. injection R as <- _. exists x. cbn [log setDur]. split; [exact X|].
    intros v V. apply Qq, Qx, V.
Qed.

Lemma fps_back : forall d, 1 <= d <= 1000 -> 1000000 / (1000000 / d) = d.
Proof.
  intros d H. set (q := 1000000 / d).
  assert (Q : 1000000 = d * q + 1000000 mod d) by (apply Z.div_mod; lia).
  pose proof (Z.mod_pos_bound 1000000 d ltac:(lia)) as B.
  assert (1000 <= q). { apply Z.div_le_lower_bound; lia. }
  symmetry. apply Z.div_unique with (r := 1000000 mod d); [lia|]. rewrite Q at 1. lia.
Qed.

Lemma grants_det : forall e w h fps format forced d f num den n d' f' num' den' n',
  grants e w h fps format forced d f num den n -> grants e w h fps format forced d' f' num' den' n' ->
  d' = d /\ f' = f /\ num' = num /\ den' = den /\ n' = n.
Proof.
  intros until n'. intros [A B C D E F G H] [A' B' C' D' E' F' G' H'].
  destruct A as (_ & _ & A), A' as (_ & _ & A'), E as (E & _), E' as (E' & _).
  rewrite A in A'. rewrite C in C'. rewrite D in D'. rewrite E in E'. repeat split; congruence.
Qed.

(* from inv to what is held *)
Lemma inv_nothing : forall c, inv c [] -> st c = SClose -> holdsNothing c.
Proof.
  intros c [A B C D E F] H. unfold holdsNothing, live in *. rewrite H in *. auto.
Qed.
Lemma inv_capture : forall c, inv c [] -> st c = SCapture -> holdsCapture c.
Proof.
  intros c [A B C D E F] H. unfold holdsCapture, live in *. rewrite H in *. auto.
Qed.

Lemma child_absent : forall k p, ~ In k (map fst p) -> CtlModel.child k p = None.
Proof.
  intros k. induction p as [|[a v] p IH]; intros H; [reflexivity|]. cbn [CtlModel.child map fst In] in *.
  destruct (streq a k) eqn:E; [|apply IH; tauto]. exfalso. apply H. left. now apply SessProofs.streq_true.
Qed.
