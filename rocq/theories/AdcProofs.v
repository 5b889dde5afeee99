(* Proofs about the audio decoder. *)
From Coq Require Import ZArith List Bool Lia.
From Verif Require Import NamesModel AdcModel AdcSpec.
Import ListNotations.
Local Open Scope list_scope.
Local Open Scope Z_scope.

Lemma fmt_eqb_eq : forall a b, fmt_eqb a b = true <-> a = b.
Proof. intros [] []; simpl; split; intro H; try reflexivity; discriminate. Qed.
Lemma fmt_eqb_refl : forall a, fmt_eqb a a = true.
Proof. intros []; reflexivity. Qed.
Lemma acodec_eqb_eq : forall a b, acodec_eqb a b = true <-> a = b.
Proof. intros [] []; simpl; split; intro H; try reflexivity; discriminate. Qed.
Lemma acodec_eqb_refl : forall a, acodec_eqb a a = true.
Proof. intros []; reflexivity. Qed.

Lemma supported_in : forall c, supported c = true <-> In c [PCMU; OPUS; AAC; MP3].
Proof.
  intros []; simpl; split; intro H; try reflexivity; try discriminate;
  repeat (destruct H as [H|H]; [discriminate|]); tauto.
Qed.

(* The outcome of the calls is determined. *)
Lemma decodes_fun : forall calls size n x, decodes calls size n x ->
  forall y, decodes calls size n y -> x = y.
Proof.
  induction 1 as [size n L|size n L E|size n len x L E H IH|size n len g L E]; intros y Hy;
  inversion Hy; subst; try lia; try congruence.
  assert (len0 = len) by congruence. subst len0. apply IH. assumption.
Qed.

Section P.
Variable alloc init : params -> params -> bool.
Hypothesis HA : forall o i, alloc o i = true.

Definition inv (p : params) (s : adec) : Prop :=
  out s = p /\ slot s = p /\ (conv s = NoSwr -> inFmt s = S_NONE) /\
  (forall o i, conv s = Ready o i -> o = p) /\
  ((inCh s = 0 /\ ctx s = Missing) \/ ctx s = Opened (fCodec s) (inCh s) (inRate s) \/ ctx s = Unopened).

Definition uni (i : params) (s : adec) : Prop :=
  (inCh s = 0 \/ (inCh s = pch i /\ inRate s = prate i)) /\
  (forall o j, conv s = Ready o j -> j = i).

Definition fine (s : adec) : Prop := ctx s <> Unopened /\ conv s <> Raw.

Lemma inv0 : forall c l p, inv p (adec0 c l p).
Proof.
  intros. unfold inv, adec0; cbn. split; [reflexivity|]. split; [reflexivity|].
  split; [reflexivity|]. split; [intros; discriminate|]. left. split; reflexivity.
Qed.

Lemma reconf : forall p s r, inv p s -> plain p r ->
  exists s1 b, reconfigure s (rframe r) (ropen r) = (s1, b) /\ inv p s1 /\ b <> Broken /\
    inCh s1 = cch (rframe r) /\ inRate s1 = crate (rframe r) /\ fCodec s1 = ccodec (rframe r) /\
    conv s1 = conv s /\ sSamples s1 = sSamples s /\ sLen s1 = sLen s /\
    (ctx s1 = decoderOf (rframe r) \/ ctx s1 = Unopened) /\
    (b = Bad -> ctx s1 = Unopened) /\
    (ropen r = Opens -> fine s -> b = Good /\ fine s1).
Proof.
  intros p s r (Ho & Hs & Hn & Hr & Hc) P. destruct P as [Pc Pch Pr Po _ _ _].
  unfold reconfigure, decoderOf.
  apply Z.leb_gt in Pch as Pch'. apply Z.leb_gt in Pr as Pr'. rewrite Pch', Pr'. cbn [orb].
  destruct (acodec_eqb (ccodec (rframe r)) (fCodec s) && (cch (rframe r) =? inCh s) && (crate (rframe r) =? inRate s)) eqn:E.
  - apply andb_true_iff in E as [E E3]. apply andb_true_iff in E as [E1 E2].
    apply acodec_eqb_eq in E1. apply Z.eqb_eq in E2, E3.
    exists s, Good. split; [reflexivity|]. split; [unfold inv; tauto|].
    split; [discriminate|]. split; [congruence|]. split; [congruence|]. split; [congruence|].
    split; [reflexivity|]. split; [reflexivity|]. split; [reflexivity|]. split.
    { destruct Hc as [[H _]|[H|H]]; [lia| |right; exact H]. left. rewrite H. congruence. }
    split; [discriminate|]. intros _ F. split; [reflexivity|exact F].
  - apply supported_in in Pc. rewrite Pc.
    assert (NF : forall A (a b : A), match ctx s with FreedCtx => a | _ => b end = b).
    { intros. destruct Hc as [[_ H]|[H|H]]; rewrite H; reflexivity. }
    destruct Po as [Po|Po]; rewrite Po.
    + exists (setCtx (setIn s (ccodec (rframe r)) (cch (rframe r)) (crate (rframe r))) (Opened (ccodec (rframe r)) (cch (rframe r)) (crate (rframe r)))), Good.
      split; [destruct (ctx s); try reflexivity; destruct Hc as [[_ H]|[H|H]]; discriminate|].
      split. { unfold inv; cbn. repeat (split; [assumption|]). right; left; reflexivity. }
      split; [discriminate|]. cbn. repeat (split; [reflexivity|]).
      split; [left; reflexivity|]. split; [discriminate|].
      intros _ [_ F]. split; [reflexivity|]. split; [cbn; discriminate|exact F].
    + exists (setCtx (setIn s (ccodec (rframe r)) (cch (rframe r)) (crate (rframe r))) Unopened), Bad.
      split; [destruct (ctx s); try reflexivity; destruct Hc as [[_ H]|[H|H]]; discriminate|].
      split. { unfold inv; cbn. repeat (split; [assumption|]). right; right; reflexivity. }
      split; [discriminate|]. cbn. repeat (split; [reflexivity|]).
      split; [right; reflexivity|]. split; [reflexivity|]. intros Q. discriminate Q.
Qed.

(* the converter after the check of the format *)
Lemma check_spec : forall p s f, inv p s -> f <> S_NONE ->
  exists s1, checkSampleFormat alloc init s f = s1 /\ inv p s1 /\ conv s1 <> NoSwr /\
    ctx s1 = ctx s /\ inCh s1 = inCh s /\ inRate s1 = inRate s /\ fCodec s1 = fCodec s /\
    (forall o j, conv s1 = Ready o j -> conv s = Ready o j \/ j = mkPar f (inCh s) (inRate s)) /\
    ((forall o i, init o i = true) -> fine s -> fine s1).
Proof.
  intros p s f (Ho & Hs & Hn & Hr & Hc) N. unfold checkSampleFormat.
  destruct (fmt_eqb (inFmt s) f) eqn:E.
  - apply fmt_eqb_eq in E. exists s. split; [reflexivity|]. split; [unfold inv; tauto|].
    split; [intro H; apply Hn in H; congruence|]. repeat (split; [reflexivity|]).
    split; [intros o j H; left; exact H|]. intros _ F; exact F.
  - unfold inputConfig. rewrite HA. cbn.
    destruct (conv s) as [| |o i] eqn:Ec; cbn.
    1, 2: destruct (init (out s) {| pfmt := f; pch := inCh s; prate := inRate s |}) eqn:Ei; cbn.
    all: eexists; split; [reflexivity|]; unfold inv, fine; cbn.
    all: try rewrite Ec.
    all: split; [split; [assumption|]; split; [assumption|]; split; [intros; congruence|];
                 split; [intros o' i' Q; try discriminate Q; injection Q as <- <-; try (exact (Hr _ _ eq_refl)); assumption|exact Hc]|].
    all: split; [discriminate|]; repeat (split; [reflexivity|]); split.
    all: try (intros o' j Q; first [discriminate Q|injection Q as <- <-; tauto]).
    all: intros Hi [F1 F2]; first [rewrite Hi in Ei; discriminate Ei|split; [exact F1|discriminate]].
Qed.

Lemma fits_sound : forall p n, sound p -> n <= 100 * prate p / 1000 -> fits p p n = true.
Proof.
  intros p n [F C] L. unfold fits, planeSize, maxSamples.
  destruct F as [F|[F|F]]; rewrite F; cbn [planar bytesOf];
  apply andb_true_iff; split; apply Z.leb_le; nia.
Qed.

Lemma resample_spec : forall p s r g, sound p -> inv p s -> conv s <> NoSwr ->
  ctx s = decoderOf (rframe r) -> gwritten g <= 100 * prate p / 1000 ->
  exists s1 x, resample s (rframe r) g = (s1, x) /\ inv p s1 /\
    conv s1 = conv s /\ inCh s1 = inCh s /\ inRate s1 = inRate s /\ ctx s1 = ctx s /\
    (x = Refused \/ exists d i, x = Delivered d /\ stamped (rframe r) d /\ holds p i (rframe r) g d /\ conv s = Ready p i) /\
    (fine s -> 0 <= gwritten g -> x <> Refused).
Proof.
  intros p s r g Sp (Ho & Hs & Hn & Hr & Hc) N D L. unfold resample.
  destruct (conv s) as [| |o i] eqn:Ec.
  - congruence.
  - exists s, Refused. split; [reflexivity|]. split; [unfold inv; rewrite Ec; tauto|].
    split; [exact Ec|]. repeat (split; [reflexivity|]). split; [left; reflexivity|].
    intros [_ F]. congruence.
  - assert (o = p) by (apply (Hr o i); reflexivity). subst o.
    destruct (gwritten g <? 0) eqn:E.
    + exists s, Refused. split; [reflexivity|]. split; [unfold inv; rewrite Ec; repeat (split; [assumption|]); exact Hc|].
      split; [exact Ec|]. repeat (split; [reflexivity|]). split; [left; reflexivity|].
      apply Z.ltb_lt in E. lia.
    + apply Z.ltb_ge in E. rewrite Hs, (fits_sound p _ Sp L).
      eexists _, _. split; [reflexivity|]. split; [unfold inv; cbn; rewrite Ec; repeat (split; [assumption|]); exact Hc|].
      cbn. split; [exact Ec|]. repeat (split; [reflexivity|]). split; [|discriminate].
      right. eexists _, i. split; [reflexivity|]. split; [unfold stamped; cbn; auto|].
      split; [|reflexivity]. unfold holds; cbn [dsrc dsamples dlen sSamples sLen setSlot ctx out]. rewrite D, Ho. split; [reflexivity|].
      split; [reflexivity|]. split; [reflexivity|].
      destruct Sp as [F _]. remember (100 * prate p / 1000) as m.
      destruct F as [F|[F|F]]; rewrite F; cbn [bytesOf]; lia.
Qed.

Lemma loop_spec : forall p r, sound p -> plain p r -> forall fuel s size n,
  inv p s -> inCh s = cch (rframe r) -> inRate s = crate (rframe r) ->
  ctx s = decoderOf (rframe r) \/ ctx s = Unopened ->
  size <= Z.of_nat fuel ->
  exists s1 x, loop alloc init fuel s (rframe r) size (rcalls r) n = (s1, x) /\ inv p s1 /\
    inCh s1 = inCh s /\ inRate s1 = inRate s /\
    (x = Refused \/ exists d, x = Delivered d /\ stamped (rframe r) d /\
       ((exists g i, decodes (rcalls r) size n (Found g) /\ holds p i (rframe r) g d /\ conv s1 = Ready p i) \/
        (decodes (rcalls r) size n Nothing /\ dsrc d = None))) /\
    (forall u, uniform u r -> uni u s -> uni u s1) /\
    ((forall o i, init o i = true) -> fine s -> fine s1 /\
       forall g, decodes (rcalls r) size n (Found g) -> 0 <= gwritten g -> x <> Refused).
Proof.
  intros p r Sp P. induction fuel as [|fuel IH]; intros s size n I Ech Er D L; cbn [loop].
  1, 2: destruct (size <=? 0) eqn:E; [apply Z.leb_le in E|apply Z.leb_gt in E].
  1, 3: exists s; eexists; split; [reflexivity|]; split; [exact I|]; split; [reflexivity|]; split; [reflexivity|];
        split; [right; eexists; split; [reflexivity|]; split; [unfold stamped; cbn; auto|];
                right; split; [constructor; exact E|reflexivity]|];
        split; [tauto|]; intros _ F; split; [exact F|]; intros; discriminate.
  - cbn in L; lia.
  - destruct D as [D|D]; rewrite D.
    2:{ exists s, Refused. split; [reflexivity|]. split; [exact I|]. split; [reflexivity|]. split; [reflexivity|].
        split; [left; reflexivity|]. split; [tauto|]. intros _ [F _]. congruence. }
    unfold decoderOf at 1. destruct (rcalls r n) as [|len [g|]] eqn:Ec.
    + exists s, Refused. split; [reflexivity|]. split; [exact I|]. split; [reflexivity|]. split; [reflexivity|].
      split; [left; reflexivity|]. split; [tauto|]. intros _ F. split; [exact F|].
      intros g Hg _. exfalso. pose proof (decodes_fun _ _ _ _ (D_err _ _ _ E Ec) _ Hg). discriminate.
    + destruct (check_spec p s (gfmt g) I (pl_fmt _ _ P _ _ _ Ec)) as (s1 & E1 & I1 & N1 & C1 & Ch1 & R1 & F1 & U1 & G1).
      rewrite E1.
      destruct (resample_spec p s1 r g Sp I1 N1 (eq_trans C1 D) (pl_room _ _ P _ _ _ Ec))
        as (s2 & x & E2 & I2 & Cv2 & Ch2 & R2 & C2 & X2 & G2).
      rewrite E2. exists s2, x. split; [reflexivity|]. split; [exact I2|]. split; [congruence|]. split; [congruence|].
      split.
      { destruct X2 as [X|(d & i & X & St & H & Q)]; [left; exact X|right].
        exists d. split; [exact X|]. split; [exact St|]. left. exists g, i.
        split; [econstructor; eassumption|]. split; [exact H|congruence]. }
      split.
      { intros u (U & V & W) [A B]. unfold uni. rewrite Cv2, Ch2, R2, Ch1, R1.
        split; [exact A|]. intros o j Q. destruct (U1 _ _ Q) as [Q'|Q']; [exact (B _ _ Q')|].
        rewrite Q', (W _ _ _ Ec), Ech, Er, U, V. destruct u; reflexivity. }
      intros Hi F. specialize (G1 Hi F). split.
      { split; [rewrite C2; exact (proj1 G1)|rewrite Cv2; exact (proj2 G1)]. }
      intros g' Hg W. pose proof (decodes_fun _ _ _ _ (D_got _ _ _ _ _ E Ec) _ Hg) as Q. injection Q as <-.
      exact (G2 G1 W).
    + pose proof (pl_takes _ _ P _ _ Ec) as Lp.
      destruct (IH s (size - len) (S n) I Ech Er (or_introl D)) as (s1 & x & E1 & I1 & Ch1 & R1 & X1 & U1 & G1); [lia|].
      exists s1, x. split; [exact E1|]. split; [exact I1|]. split; [exact Ch1|]. split; [exact R1|]. split.
      { destruct X1 as [X|(d & X & St & [(g & i & Hd & H & Q)|[Hd H]])]; [left; exact X|right|right];
        exists d; (split; [exact X|]); (split; [exact St|]).
        - left. exists g, i. split; [eapply D_more; eassumption|]. split; assumption.
        - right. split; [eapply D_more; eassumption|exact H]. }
      split; [exact U1|]. intros Hi F. destruct (G1 Hi F) as [F1 K]. split; [exact F1|].
      intros g Hg. apply K. inversion Hg; subst; congruence.
Qed.

Lemma process_spec : forall p r, sound p -> plain p r -> forall fuel s,
  inv p s -> clen (rframe r) <= Z.of_nat fuel ->
  exists s1 x, process alloc init fuel s r = (s1, x) /\ inv p s1 /\
    (x = Refused \/ exists d, x = Delivered d /\ stamped (rframe r) d /\
       ((exists g i, decodes (rcalls r) (clen (rframe r)) 0 (Found g) /\ holds p i (rframe r) g d /\ conv s1 = Ready p i) \/
        (decodes (rcalls r) (clen (rframe r)) 0 Nothing /\ dsrc d = None))) /\
    (forall u, uniform u r -> uni u s -> uni u s1) /\
    ((forall o i, init o i = true) -> fine s -> ropen r = Opens -> fine s1 /\
       forall g, decodes (rcalls r) (clen (rframe r)) 0 (Found g) -> 0 <= gwritten g -> x <> Refused).
Proof.
  intros p r Sp P fuel s I L. unfold process.
  destruct (reconf p s r I P) as (s1 & b & E1 & I1 & NB & Ch1 & R1 & F1 & Cv1 & _ & _ & C1 & B1 & G1).
  rewrite E1.
  assert (U1 : forall u, uniform u r -> uni u s -> uni u s1).
  { intros u (U & V & W) [A B]. unfold uni. rewrite Cv1, Ch1, R1. split; [right; auto|exact B]. }
  destruct b.
  - destruct (clen (rframe r) <=? 0) eqn:E.
    + exists s1, Refused. split; [reflexivity|]. split; [exact I1|]. split; [left; reflexivity|].
      split; [exact U1|]. intros Hi F O. destruct (G1 O F) as [_ F']. split; [exact F'|].
      intros g Hg. apply Z.leb_le in E. inversion Hg; subst; lia.
    + destruct (loop_spec p r Sp P fuel s1 (clen (rframe r)) 0%nat I1 Ch1 R1 C1 L)
        as (s2 & x & E2 & I2 & Ch2 & R2 & X2 & U2 & G2).
      exists s2, x. split; [exact E2|]. split; [exact I2|]. split; [exact X2|].
      split; [intros u Hu Hs; apply U2; auto|].
      intros Hi F O. destruct (G1 O F) as [_ F']. exact (G2 Hi F').
  - exists s1, Refused. split; [reflexivity|]. split; [exact I1|]. split; [left; reflexivity|].
    split; [exact U1|]. intros Hi F O. destruct (G1 O F) as [Q _]. discriminate.
  - congruence.
Qed.

Lemma not_fatal : forall x, (x = Refused \/ exists d, x = Delivered d) -> fatal x = false.
Proof. intros x [->|[d ->]]; reflexivity. Qed.

(* A property of every frame's answer that the invariant [J] gives. *)
Lemma run_all : forall fuel (J : adec -> Prop) (Q : round -> Prop) (R : round -> result -> Prop),
  (forall s r, J s -> Q r -> exists s1 x, process alloc init fuel s r = (s1, x) /\ J s1 /\ R r x /\ fatal x = false) ->
  forall rs s, J s -> Forall Q rs ->
  exists s1 xs, run alloc init fuel s (map Frame rs) = (s1, map Some xs) /\ Forall2 R rs xs /\ J s1.
Proof.
  intros fuel J Q R Step. induction rs as [|r rs IH]; intros s Js F.
  - exists s, []. cbn. repeat split; auto.
  - inversion F; subst. destruct (Step s r Js H1) as (s1 & x & E & J1 & Rx & Fx).
    destruct (IH s1 J1 H2) as (s2 & xs & E2 & F2 & J2).
    exists s2, (x :: xs). cbn [run map]. rewrite E, Fx, E2. repeat split; auto.
Qed.

End P.
