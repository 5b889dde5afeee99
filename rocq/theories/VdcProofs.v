(* Lemmas on the video decoder. *)
From Coq Require Import ZArith List Bool Lia.
From Verif Require Import NamesModel VdcModel VdcSpec.
From Verif Require RsmModel.
Import ListNotations.
Local Open Scope list_scope.
Local Open Scope Z_scope.

(* Never configured, or noted codec offered with a context of its own. *)
Definition sane (s : vdec) : Prop :=
  s = vdec0 \/ supported (fCodec s) = true /\ (ctx s = Unopened \/ ctx s = Opened (fCodec s)).

Lemma vcodec_eqb_eq a b : vcodec_eqb a b = true <-> a = b.
Proof. destruct a, b; cbn; split; congruence. Qed.
Lemma vcodec_eqb_neq a b : vcodec_eqb a b = false <-> a <> b.
Proof. destruct a, b; cbn; split; congruence. Qed.
Lemma offered_supported c : offered c <-> supported c = true.
Proof. unfold offered. destruct c; cbn; intuition congruence. Qed.

Lemma inputConfig_sane s o : supported (fCodec s) = true -> ctx s <> FreedCtx -> o = Opens \/ o = OpenFails ->
  sane (fst (inputConfig s o)) /\ fCodec (fst (inputConfig s o)) = fCodec s /\ snd (inputConfig s o) <> Broken /\
  (snd (inputConfig s o) = Good -> ctx (fst (inputConfig s o)) = Opened (fCodec s)).
Proof.
  intros S F O. unfold inputConfig. rewrite S. destruct (ctx s); [|congruence| |]; destruct O as [-> | ->]; cbn;
  (split; [right; auto|]); repeat split; try discriminate; auto.
Qed.

Lemma again_sane s o : supported (fCodec s) = true -> ctx s <> FreedCtx -> o = Opens \/ o = OpenFails ->
  sane (fst (again s o)) /\ fCodec (fst (again s o)) = fCodec s /\ snd (again s o) = Nothing.
Proof.
  intros S F O. destruct (inputConfig_sane s o S F O) as (A & B & C & _). unfold again.
  destruct (inputConfig s o) as [s1 r]. cbn in *. destruct r; try congruence; auto.
Qed.

Lemma loop_sane fuel : forall s f size calls n o, sane s -> supported (fCodec s) = true -> o = Opens \/ o = OpenFails ->
  sane (fst (loop fuel s f size calls n o)) /\ fCodec (fst (loop fuel s f size calls n o)) = fCodec s /\
  snd (loop fuel s f size calls n o) <> Crash /\
  (forall d, snd (loop fuel s f size calls n o) = Delivered d ->
     dpts d = cpts f /\ dorg d = corg f /\ dseq d = cseq f /\ dby d = fCodec s /\ 0 < dlen d <= RsmModel.slotSize /\
     exists m len, calls m = Took len (Some (mkP (dnum d) (dlen d)))).
Proof.
  assert (Q : forall s, sane s -> supported (fCodec s) = true -> ctx s = Unopened \/ ctx s = Opened (fCodec s)).
  { intros s [->|[_ X]] Y; [discriminate Y|exact X]. }
  induction fuel as [|k IH]; intros s f size calls n o N S O; cbn [loop];
  (destruct (size <=? 0); [cbn; repeat split; auto; discriminate|]); destruct (Q s N S) as [C|C]; rewrite C.
  - destruct (again_sane s o S) as (A & B & D); [congruence|exact O|]. rewrite D. repeat split; auto; discriminate.
  - cbn. repeat split; auto; discriminate.
  - destruct (again_sane s o S) as (A & B & D); [congruence|exact O|]. rewrite D. repeat split; auto; discriminate.
  - destruct (calls n) as [|len got] eqn:E.
    + destruct (again_sane s o S) as (A & B & D); [congruence|exact O|]. rewrite D. repeat split; auto; discriminate.
    + destruct got as [p|]; [|apply IH; assumption].
      destruct (Z.leb_spec (pbytes p) 0); [apply IH; assumption|].
      destruct (Z.leb_spec (pbytes p) RsmModel.slotSize); cbn [fst snd]; [|repeat split; auto; discriminate].
      split; [exact N|]. split; [reflexivity|]. split; [discriminate|]. intros d D. inversion D; subst d. cbn.
      repeat split; auto. exists n, len. destruct p; exact E.
Qed.

Lemma loop_ends fuel : forall s f size calls n o,
  (forall m len got, calls m = Took len got -> 0 < len) ->
  size <= Z.of_nat fuel -> snd (loop fuel s f size calls n o) <> Running.
Proof.
  assert (G : forall s o, snd (again s o) <> Running).
  { intros s o. unfold again. destruct (inputConfig s o) as [? []]; discriminate. }
  induction fuel as [|k IH]; intros s f size calls n o A B; cbn [loop].
  - destruct (Z.leb_spec size 0); [discriminate|lia].
  - destruct (Z.leb_spec size 0); [discriminate|]. destruct (ctx s); try discriminate; [apply G|].
    destruct (calls n) as [|len got] eqn:Q; [apply G|]. pose proof (A n len got Q).
    destruct got as [p|]; [destruct (pbytes p <=? 0); [|destruct (pbytes p <=? RsmModel.slotSize); discriminate]|];
    (apply IH; [exact A|lia]).
Qed.

Lemma loop_fits fuel : forall s f size calls n o,
  (forall m len p, calls m = Took len (Some p) -> pbytes p <= RsmModel.slotSize) -> snd (loop fuel s f size calls n o) <> Overflow.
Proof.
  assert (G : forall s o, snd (again s o) <> Overflow).
  { intros s o. unfold again. destruct (inputConfig s o) as [? []]; discriminate. }
  induction fuel as [|k IH]; intros s f size calls n o A; cbn [loop]; (destruct (size <=? 0); [discriminate|]); destruct (ctx s); try discriminate; try apply G.
  destruct (calls n) as [|len [p|]] eqn:Q; [apply G| |apply IH; exact A].
  destruct (pbytes p <=? 0); [apply IH; exact A|]. pose proof (A n len p Q).
  destruct (Z.leb_spec (pbytes p) RsmModel.slotSize); [discriminate|lia].
Qed.

Lemma process_sane fuel s r : sane s -> plain r ->
  sane (fst (process fuel s r)) /\ fCodec (fst (process fuel s r)) = ccodec (rframe r) /\ snd (process fuel s r) <> Crash /\
  (forall d, snd (process fuel s r) = Delivered d -> stampedAs (rframe r) d /\ 0 < dlen d <= RsmModel.slotSize /\
     exists m len, rcalls r m = Took len (Some (mkP (dnum d) (dlen d)))).
Proof.
  intros N (P & O & O2). apply offered_supported in P. unfold process, reconfigure.
  destruct (vcodec_eqb (fCodec s) (ccodec (rframe r))) eqn:E.
  - apply vcodec_eqb_eq in E. rewrite <- E in P.
    destruct (loop_sane fuel s (rframe r) (clen (rframe r)) (rcalls r) 0 (ragain r) N P O2) as (A & B & C & D).
    split; [exact A|]. split; [congruence|]. split; [exact C|]. intros d X. destruct (D d X) as (?&?&?&?&?&?).
    unfold stampedAs. repeat split; try tauto; congruence.
  - destruct (inputConfig_sane (mkV (ccodec (rframe r)) (ctx s)) (ropen r)) as (A & B & C & D); [exact P| |exact O|].
    { cbn [ctx]. destruct N as [N|[_ [N|N]]]; rewrite N; discriminate. }
    destruct (inputConfig _ _) as [s1 b]. cbn [fst snd fCodec] in *. destruct b; [| |congruence].
    + rewrite <- B in P. destruct (loop_sane fuel s1 (rframe r) (clen (rframe r)) (rcalls r) 0 (ragain r) A P O2) as (A1 & B1 & C1 & D1).
      split; [exact A1|]. split; [congruence|]. split; [exact C1|]. intros d X. destruct (D1 d X) as (?&?&?&?&?&?).
      unfold stampedAs. repeat split; try tauto; congruence.
    + cbn. repeat split; auto; discriminate.
Qed.

Lemma run_sane fuel : forall rs s, sane s -> (forall r, In r rs -> plain r) -> sane (fst (run fuel s rs)).
Proof.
  induction rs as [|r t IH]; intros s N P; [exact N|]. cbn [run].
  destruct (process_sane fuel s r N (P r (or_introl eq_refl))) as (A & _). destruct (process fuel s r) as [s1 x]. cbn [fst] in A.
  destruct (fatal x); [exact A|]. specialize (IH s1 A (fun q Q => P q (or_intror Q))). destruct (run fuel s1 t). exact IH.
Qed.

Lemma run_results fuel : forall rs s k x, sane s -> (forall r, In r rs -> plain r) ->
  nth_error (snd (run fuel s rs)) k = Some x ->
  exists r s1, nth_error rs k = Some r /\ sane s1 /\ x = snd (process fuel s1 r).
Proof.
  induction rs as [|r t IH]; intros s k x N P H; [destruct k; discriminate H|]. cbn [run] in H.
  destruct (process_sane fuel s r N (P r (or_introl eq_refl))) as (A & _).
  destruct (process fuel s r) as [s1 y] eqn:E. cbn [fst] in A.
  destruct k as [|k].
  - exists r, s. split; [reflexivity|]. split; [exact N|]. rewrite E. destruct (fatal y); [|destruct (run fuel s1 t)]; cbn in H; injection H as <-; reflexivity.
  - destruct (fatal y); [cbn in H; destruct k; discriminate H|].
    specialize (IH s1 k x A (fun q Q => P q (or_intror Q))). destruct (run fuel s1 t) as [s2 l]. cbn in H. exact (IH H).
Qed.
