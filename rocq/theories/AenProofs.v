(* Proofs about the audio encoder. *)
From Coq Require Import ZArith List Bool Lia.
From Verif Require Import NamesModel AdcModel AdcProofs AenModel AenSpec.
Import ListNotations.
Local Open Scope list_scope.
Local Open Scope Z_scope.

Lemma listed_in : forall l x, listed l x = true <-> exists m, l = Some m /\ In x m.
Proof.
  intros [m|] x; cbn; split.
  - intro H. apply existsb_exists in H as (y & H & E). apply Z.eqb_eq in E. subst y. exists m. auto.
  - intros (m' & E & H). injection E as <-. apply existsb_exists. exists x. split; [exact H|apply Z.eqb_refl].
  - discriminate.
  - intros (m & E & _). discriminate.
Qed.

Lemma fmt_in : forall l f, existsb (fmt_eqb f) l = true <-> In f l.
Proof.
  intros l f. rewrite existsb_exists. split.
  - intros (y & H & E). apply fmt_eqb_eq in E. subst. exact H.
  - intro H. exists f. split; [exact H|apply fmt_eqb_refl].
Qed.

Lemma checks_in : forall k f r c, checks k f r c = true <->
  In f (lfmts k) /\ (exists l, lrates k = Some l /\ In r l) /\ (exists l, lchans k = Some l /\ In c l).
Proof.
  intros. unfold checks. rewrite !andb_true_iff, fmt_in, !listed_in. tauto.
Qed.

Lemma fill_length : forall n l, 0 <= n -> Z.of_nat (length (fill n l)) = n.
Proof.
  intros n l H. unfold fill. rewrite firstn_length, app_length, repeat_length.
  rewrite Nat.min_l by lia. lia.
Qed.

(* A request on an encoder without a codec. *)
Lemma codec_after : forall s q a, ecodec (fst (configure s q a)) =
  match ecodec s with AC_NONE => dflt (qCodec q) AC_NONE | c => c end.
Proof.
  intros s q a. unfold configure. destruct (ecodec s) eqn:E; try exact E.
  unfold codingConfig. cbn. destruct (if known _ then aFind a else None); [|reflexivity].
  destruct (aCtx a); [|reflexivity]. destruct (_ || _); [|reflexivity].
  destruct (lopen _ _ _ _); [|reflexivity]. destruct (if _ <=? 0 then None else _); reflexivity.
Qed.

(* What lets frames reach the encoder. *)
Definition gate (s : enc) : Prop :=
  einp s = mkPar S_NONE 0 0 /\ econv s = NoSwr /\ fifo s = [] /\
  (spf s <> 0 -> ectx s = Open /\ ecodec s <> AC_NONE /\ exists d, buf s = Some d /\ Z.of_nat (length d) = spf s).

Lemma gate0 : gate enc0.
Proof. unfold gate; cbn. repeat (split; [reflexivity|]). intro H; congruence. Qed.

Lemma gate_step : forall s q a, gate s -> (exists m, aMem a = Some m) ->
  (forall k, aFind a = Some k -> 0 <= lframe k) -> gate (fst (configure s q a)).
Proof.
  intros s q a (I & C & F & G) (m & M) L. unfold configure.
  destruct (ecodec s) eqn:Ec; try (cbn [fst]; unfold gate; rewrite Ec; tauto).
  assert (Z0 : spf s = 0).
  { destruct (Z.eq_dec (spf s) 0) as [E|E]; [exact E|]. destruct (G E) as (_ & Q & _). congruence. }
  unfold codingConfig. cbn [ecodec ifmt erate ech ebit einp efmt spf buf econv fifo ectx].
  destruct (known (dflt (qCodec q) AC_NONE)) eqn:K.
  2:{ unfold gate; cbn. rewrite Z0. repeat (split; [assumption|]). intro H; exfalso; apply H; reflexivity. }
  destruct (aFind a) as [k|] eqn:Fi.
  2:{ unfold gate; cbn. rewrite Z0. repeat (split; [assumption|]). intro H; exfalso; apply H; reflexivity. }
  destruct (aCtx a); [|unfold gate; cbn; rewrite Z0; repeat (split; [assumption|]); intro H; exfalso; apply H; reflexivity].
  destruct (_ || _); [|unfold gate; cbn; rewrite Z0; repeat (split; [assumption|]); intro H; exfalso; apply H; reflexivity].
  destruct (lopen _ _ _ _); [|unfold gate; cbn; rewrite Z0; repeat (split; [assumption|]); intro H; exfalso; apply H; reflexivity].
  specialize (L k eq_refl). rewrite I, M. cbn [prate].
  change (defaultSamples 0) with 0.
  destruct (lframe k =? 0) eqn:E.
  - cbn. unfold gate; cbn. split; [reflexivity|]. repeat (split; [assumption|]). intro H; exfalso; apply H; reflexivity.
  - apply Z.eqb_neq in E. assert (P : lframe k <=? 0 = false) by (apply Z.leb_gt; lia). rewrite P.
    unfold gate; cbn. split; [reflexivity|]. repeat (split; [assumption|]). intros _.
    split; [reflexivity|]. split; [intro Q; rewrite Q in K; discriminate|].
    eexists. split; [reflexivity|]. apply fill_length; lia.
Qed.

Lemma par_eqb_eq : forall a b, par_eqb a b = true <-> a = b.
Proof.
  intros [f c r] [f' c' r']. unfold par_eqb; cbn. rewrite !andb_true_iff, fmt_eqb_eq, !Z.eqb_eq.
  split; [intros [[-> ->] ->]; reflexivity|intro H; injection H as -> -> ->; auto].
Qed.

Section R.
Variable alloc init : params -> params -> bool.
Hypothesis HA : forall o i, alloc o i = true.
Hypothesis HI : forall o i, init o i = true.

(* An encoder that can take frames: before the first, or after some. *)
Definition live (n : nat) (s : enc) : Prop :=
  ectx s = Open /\ (exists d, buf s = Some d /\ length d = n) /\ (0 < n)%nat /\
  econv s <> Raw /\ (econv s = NoSwr -> fifo s = [] /\ pfmt (einp s) = S_NONE).

Lemma live_step : forall n s r, live n s -> pfmt (rpar r) <> S_NONE ->
  exists s1 d, ereconf alloc init s (rpar r) = (s1, true) /\ (exists o i, econv s1 = Ready o i) /\
    fifo s1 = fifo s /\ buf s1 = Some d /\ buf s = Some d /\ length d = n /\ ectx s1 = Open.
Proof.
  intros n s r (C & (d & B & Ln) & P & NR & Hn) Nf. unfold ereconf.
  destruct (par_eqb (einp s) (rpar r)) eqn:E.
  - apply par_eqb_eq in E. exists s, d. split; [reflexivity|]. split.
    { destruct (econv s) as [| |o i] eqn:Ec; [|congruence|exists o, i; reflexivity].
      destruct (Hn eq_refl) as [_ Q]. congruence. }
    auto 7.
  - rewrite HA. destruct (econv s) as [| |o i] eqn:Ec.
    + rewrite HI. destruct (Hn eq_refl) as [Q _].
      exists (setIO s (buf s) (rpar r) (Ready (mkPar (ifmt s) (ech s) (erate s)) (rpar r)) []), d.
      split; [reflexivity|]. cbn. split; [eauto|]. auto 7.
    + congruence.
    + exists (setIO s (buf s) (rpar r) (Ready o i) (fifo s)), d. split; [reflexivity|]. cbn. split; [eauto|]. auto 7.
Qed.

(* One frame: what is given to the encoder and what remains. *)
Lemma eprocess_spec : forall n s r, live n s -> pfmt (rpar r) <> S_NONE ->
  exists s1 d, buf s = Some d /\
    let all := fifo s ++ rnew r in let w := Nat.min n (length all) in
    live n s1 /\ fifo s1 = skipn w all /\
    buf s1 = Some (firstn w all ++ skipn w d) /\
    eprocess alloc init s r = (s1,
      match w with
      | O => (None, O, ERefused)
      | _ => (Some (firstn w all ++ skipn w d), w,
              match renc r with
              | EPacket num z => EDelivered (mkP num z (Z.of_nat w) (rpts r) (rorg r) (rseq r))
              | _ => ERefused
              end)
      end).
Proof.
  intros n s r Lv Nf. destruct (live_step n s r Lv Nf) as (s1 & d & E & (o & i & Ec) & Ef & B1 & B & Ln & Cx).
  exists (setIO s1 (Some (firstn (Nat.min n (length (fifo s ++ rnew r))) (fifo s ++ rnew r) ++ skipn (Nat.min n (length (fifo s ++ rnew r))) d))
            (einp s1) (econv s1) (skipn (Nat.min n (length (fifo s ++ rnew r))) (fifo s ++ rnew r))), d.
  split; [exact B|]. cbn zeta. set (all := fifo s ++ rnew r). set (w := Nat.min n (length all)).
  split.
  { unfold live; cbn. split; [exact Cx|]. split.
    - eexists. split; [reflexivity|]. rewrite app_length, firstn_length, skipn_length, Ln. unfold w. lia.
    - split; [exact (proj1 (proj2 (proj2 Lv)))|]. rewrite Ec. split; [discriminate|]. intro Q; discriminate Q. }
  split; [reflexivity|]. split; [reflexivity|].
  unfold eprocess. rewrite E, Ec, B1, Ef, Ln. fold all. fold w. cbn [setIO ectx]. rewrite Cx.
  destruct w; reflexivity.
Qed.

End R.
