(** Proofs for C106. *)
From Coq Require Import Lia ZArith List Bool.
From Verif Require Import Base Bytes ShmModel ShoModel ShoSpec.
Import ListNotations.
Local Open Scope list_scope.
Local Open Scope Z_scope.

Lemma find_without i j l : j <> i -> find j (without i l) = find j l.
Proof.
  intros N. induction l as [|(k, d) l IH]; [reflexivity|]. unfold without in *. cbn [filter fst find]. destruct (Nat.eqb_spec k i) as [->|K]; cbn [negb find].
  - rewrite IH. destruct (Nat.eqb_spec i j); [congruence|reflexivity].
  - rewrite IH. reflexivity.
Qed.
Lemma createNew_spec i d n q : createNew i d n = Some q ->
  qFrom q = i /\ qVideo q = true /\ qMax q = (if 250 <? n then 250 else n) /\ qCodec q = dCodec d /\ setup (dCodec d) (dPix d) = Some (qCap q).
Proof. unfold createNew. destruct (setup (dCodec d) (dPix d)); [|discriminate]. intros E. injection E as <-. repeat split. Qed.
Lemma clamp n : (if 250 <? (if 250 <? n then 250 else n) then 250 else (if 250 <? n then 250 else n)) = (if 250 <? n then 250 else n).
Proof. destruct (Z.ltb_spec 250 n); [reflexivity|]. destruct (Z.ltb_spec 250 n); [lia|reflexivity]. Qed.

(** The queue before the filter is what its description, which is there, says; the queue after it is like it. *)
Record inv (w : world) : Prop := {
  i_in : forall q, inq w = Some q -> qVideo q = true /\ info w = Some (qFrom q) /\ maxFrames w = qMax q /\ qMax q <= 250 /\
    exists d, find (qFrom q) (descs w) = Some d /\ qCodec q = dCodec d /\ setup (dCodec d) (dPix d) = Some (qCap q);
  i_out : forall q o, inq w = Some q -> outq w = Some o -> qVideo o = true /\ qCodec o = qCodec q /\ qCap o = qCap q /\ qMax o = qMax q }.

Lemma step_inv w e w' : inv w -> inOrder w e -> step e w = Some w' -> inv w'.
Proof.
  intros I O E. destruct e as [i d|i d|i|i n| | | |f]; cbn [step] in E.
  - injection E as <-. destruct (find i (descs w)) eqn:F; [exact I|]. split; cbn [inq outq info maxFrames descs]; [|exact (i_out w I)].
    intros q Q. destruct (i_in w I q Q) as (A & B & C & C' & x & D1 & D2). repeat (split; [assumption|]). exists x. split; [|exact D2].
    cbn [find]. destruct (Nat.eqb_spec i (qFrom q)); [congruence|exact D1].
  - injection E as <-. destruct (find i (descs w)) eqn:F; [|exact I]. split; cbn [inq outq info maxFrames descs]; [|exact (i_out w I)].
    intros q Q. destruct (i_in w I q Q) as (A & B & C & C' & x & D1 & D2). repeat (split; [assumption|]). exists x. split; [|exact D2].
    specialize (O q Q). cbn [find]. destruct (Nat.eqb_spec i (qFrom q)); [congruence|]. rewrite find_without by assumption. exact D1.
  - injection E as <-. split; cbn [inq outq info maxFrames descs]; intros q.
    + destruct (inq w) as [q'|] eqn:Q; [|discriminate]. destruct (Nat.eqb_spec (qFrom q') i); [discriminate|]. intros H. injection H as ->.
      destruct (i_in w I q Q) as (A & B & C & C' & x & D1 & D2). repeat (split; [assumption|]). exists x. split; [|exact D2]. rewrite find_without by assumption. exact D1.
    + intros o. destruct (inq w) as [q'|] eqn:Q; [|discriminate]. destruct (Nat.eqb_spec (qFrom q') i); [discriminate|]. intros H. injection H as ->. exact (i_out w I q o Q).
  - injection E as <-. unfold connectIn. destruct O as (O1 & O2). destruct (inq w) eqn:Q; [exact I|]. destruct (find i (descs w)) as [d|] eqn:F; [|exact I].
    rewrite (O2 d eq_refl). destruct (createNew i d n) as [q|] eqn:C; [|exact I]. destruct (createNew_spec i d n q C) as (C1 & C2 & C3 & C4 & C5).
    split; cbn [inq outq info maxFrames descs]; intros q'; [intros H; injection H as <-|].
    + rewrite C1. repeat split; [exact C2| |exists d; repeat split; assumption]. rewrite C3. destruct (Z.ltb_spec 250 n); lia.
    + intros o _ X. congruence.
  - injection E as <-. split; cbn [inq]; discriminate.
  - unfold connectOut in E. destruct (outq w) eqn:Q; [injection E as <-; exact I|]. destruct (info w) as [i|] eqn:N; [|discriminate].
    destruct (find i (descs w)) as [d|] eqn:F; [|discriminate]. injection E as <-. split; cbn [inq outq info maxFrames descs].
    + intros q H. destruct (i_in w I q H) as (A & B & C). rewrite N in B. split; [exact A|]. split; [exact B|exact C].
    + intros q o H X. destruct (i_in w I q H) as (A & B & C & C' & x & D1 & D2 & D3). rewrite N in B. injection B as ->. rewrite F in D1. injection D1 as <-.
      destruct (createNew_spec _ _ _ _ X) as (C1 & C2 & C3 & C4 & C5). rewrite C in C3. rewrite C3. rewrite C5 in D3. injection D3 as ->.
      repeat split; [assumption|congruence|]. destruct (Z.ltb_spec 250 (qMax q)); lia.
  - injection E as <-. split; cbn [inq outq info maxFrames descs]; [exact (i_in w I)|discriminate].
  - unfold process in E. destruct (inq w) eqn:Q; [|injection E as <-; exact I]. destruct (outq w) eqn:Q'; [|injection E as <-; exact I].
    destruct f; [|discriminate]. destruct (copyFrame q0 v); [|discriminate]. injection E as <-. split; cbn [inq outq info maxFrames descs]; rewrite <- ?Q, <- ?Q'; [exact (i_in w I)|exact (i_out w I)].
Qed.
Lemma inv0 : inv world0.
Proof. split; cbn [inq world0]; discriminate. Qed.

(** What a step puts into the queue after the filter. *)
Lemma step_passed w e w' : step e w = Some w' ->
  passed w' = passed w ++ match e, outq w with EFrame (Some f), Some o => if between w then [mkF (qCodec o) (vSeq f) (vW f) (vH f) (vPix f) (vTime f) (vData f)] else [] | _, _ => [] end.
Proof.
  intros E. destruct e as [i d|i d|i|i n| | | |f]; cbn [step] in E; try (injection E as <-; cbn [passed]; rewrite ?app_nil_r).
  - destruct (find i (descs w)); reflexivity.
  - destruct (find i (descs w)); reflexivity.
  - reflexivity.
  - unfold connectIn. destruct (inq w), (find i (descs w)); try reflexivity. destruct (if dVideo d then _ else _); reflexivity.
  - reflexivity.
  - unfold connectOut in E. destruct (outq w); [injection E as <-; rewrite app_nil_r; reflexivity|]. destruct (info w); [|discriminate].
    destruct (find n (descs w)); [|discriminate]. injection E as <-. cbn [passed]. rewrite app_nil_r. reflexivity.
  - reflexivity.
  - unfold process in E. unfold between. destruct (inq w) eqn:Q.
    + destruct (outq w) eqn:Q'; [|injection E as <-; destruct f; rewrite app_nil_r; reflexivity]. destruct f; [|discriminate].
      unfold copyFrame in E. destruct (qCap q0 <? len (vData v)); [discriminate|]. injection E as <-. reflexivity.
    + injection E as <-. destruct f, (outq w); rewrite app_nil_r; reflexivity.
Qed.
Lemma run_passed es : forall w w', run es w = Some w' -> exists l, passed w' = passed w ++ l /\ Forall2 sameContent l (arrived es w).
Proof.
  induction es as [|e es IH]; intros w w' E; cbn [run arrived] in *.
  - injection E as <-. exists []. rewrite app_nil_r. split; [reflexivity|constructor].
  - destruct (step e w) as [w1|] eqn:S; [|discriminate]. destruct (IH w1 w' E) as (l & L1 & L2). pose proof (step_passed w e w1 S) as P. rewrite P in L1.
    rewrite <- app_assoc in L1. eexists. split; [exact L1|]. apply Forall2_app; [|exact L2].
    destruct e as [| | | | | | |[f|]]; destruct (outq w) as [o|] eqn:Q; try constructor; unfold between; rewrite Q; destruct (inq w); repeat constructor.
Qed.
Lemma step_total w e : inv w -> inOrder w e -> fromInput w e -> exists w', step e w = Some w'.
Proof.
  intros I O F. destruct e as [i d|i d|i|i n| | | |f]; cbn [step]; try (eexists; reflexivity).
  - unfold connectOut. destruct (outq w); [eexists; reflexivity|]. destruct O as (q & Q). destruct (i_in w I q Q) as (_ & -> & _ & _ & d & -> & _). eexists; reflexivity.
  - unfold process. unfold fromInput in F. destruct (inq w) as [q|] eqn:Q; [|eexists; reflexivity]. destruct (outq w) as [o|] eqn:Q'; [|eexists; reflexivity].
    destruct f as [f|]; [|destruct (i_in w I q Q) as (A & _); congruence]. destruct F as (_ & _ & F). destruct (i_out w I q o Q Q') as (_ & _ & C & _).
    unfold copyFrame. rewrite C. destruct (Z.ltb_spec (qCap q) (len (vData f))); [lia|]. eexists; reflexivity.
Qed.
Lemma run_safe es : forall w, inv w -> always inOrder es w -> always fromInput es w ->
  exists w', run es w = Some w' /\ inv w' /\ passed w' = passed w ++ arrived es w.
Proof.
  induction es as [|e es IH]; intros w I A B; cbn [run arrived always] in *.
  - exists w. rewrite app_nil_r. split; [reflexivity|]. split; [exact I|reflexivity].
  - destruct A as (A1 & A2). destruct B as (B1 & B2). destruct (step_total w e I A1 B1) as (w1 & S). rewrite S. pose proof (step_inv w e w1 I A1 S) as I1.
    destruct (IH w1 I1 (A2 w1 S) (B2 w1 S)) as (w' & R & I' & P). exists w'. split; [exact R|]. split; [exact I'|]. rewrite P, (step_passed w e w1 S), <- app_assoc. f_equal. f_equal.
    destruct e as [| | | | | | |[f|]]; destruct (outq w) as [o|] eqn:Q; try reflexivity; unfold between; rewrite Q; destruct (inq w) as [q|] eqn:Q'; try reflexivity.
    destruct (i_out w I q o Q' Q) as (_ & C & _). unfold fromInput in B1. rewrite Q' in B1. destruct B1 as (_ & B1 & _). rewrite C, <- B1. destruct f; reflexivity.
Qed.
