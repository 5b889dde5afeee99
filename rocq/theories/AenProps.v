(* C60: the audio encoder. *)
From Coq Require Import ZArith List Bool Lia.
From Verif Require Import NamesModel AdcModel AdcProofs AenModel AenSpec AenProofs.
From Verif Require Base AudioBufIface AudioBufModel.
Import ListNotations.
Local Open Scope list_scope.
Local Open Scope Z_scope.

(* -- Configuration -------------------------------------------------------- *)

(* A new encoder accepts a request exactly if the library offers it with a
   fixed frame size; it then asks its input for frames of that size.  Missing:
   a codec with no fixed frame size, and one whose lists are open. *)
Theorem C60_configured_partial : forall c ch rate bit a,
  (forall k, aFind a = Some k -> 0 <= lframe k) ->
  (snd (configure enc0 (full c ch rate bit) a) = true <->
   exists k m, offered c ch rate bit a k m /\ 0 < lframe k) /\
  forall k, aFind a = Some k -> snd (configure enc0 (full c ch rate bit) a) = true ->
    let s := fst (configure enc0 (full c ch rate bit) a) in
    reader s true = Some (lframe k) /\ ecodec s = c /\ ech s = ch /\ erate s = rate.
Proof.
  intros c ch rate bit a L.
  assert (X : configure enc0 (full c ch rate bit) a =
    codingConfig (mkE c ch rate (codecFmt c S_NONE) bit (innerFmt c S_NONE) NoCtx 0 None (mkPar S_NONE 0 0) NoSwr []) (known c) a) by reflexivity.
  rewrite X. clear X. unfold codingConfig. cbn [ecodec ech erate ebit ifmt efmt einp spf buf econv fifo prate].
  change (defaultSamples 0) with 0.
  assert (Fd : forall f, feeds c f -> known c = true /\ innerFmt c S_NONE = f).
  { intros f [[H ->]|[-> ->]]; [|auto]. cbn in H. destruct H as [<-|[<-|[<-|[<-|[]]]]]; auto. }
  assert (Fk : known c = true -> feeds c (innerFmt c S_NONE)).
  { unfold feeds. destruct c; cbn; try discriminate; intros _; tauto. }
  assert (Pc : acodec_eqb c PCMU || acodec_eqb c PCM = true <-> In c [PCM; PCMU]).
  { destruct c; cbn; split; try discriminate; try tauto; intros [H|[H|[]]]; discriminate. }
  destruct (known c) eqn:K.
  2:{ split; [split; [discriminate|intros (k & m & (_ & _ & _ & _ & f & H & _) & _); destruct (Fd f H); discriminate]|discriminate]. }
  specialize (Fk eq_refl).
  destruct (aFind a) as [k|] eqn:Fi.
  2:{ split; [split; [discriminate|intros (k & m & (H & _) & _); congruence]|discriminate]. }
  specialize (L k eq_refl).
  destruct (aCtx a) eqn:Cx.
  2:{ split; [split; [discriminate|intros (k' & m & (_ & H & _) & _); congruence]|discriminate]. }
  destruct (acodec_eqb c PCMU || acodec_eqb c PCM || checks k (innerFmt c S_NONE) rate ch) eqn:Ck.
  2:{ split; [split; [discriminate|]|discriminate].
      intros (k' & m & (H & _ & _ & _ & f & Hf & Hc) & _). assert (k' = k) by congruence. subst k'.
      apply orb_false_iff in Ck as [C1 C2]. destruct (Fd f Hf) as [_ <-]. destruct Hc as [Hc|Hc].
      - apply Pc in Hc. congruence.
      - apply checks_in in Hc. congruence. }
  destruct (lopen k ch rate bit) eqn:Op.
  2:{ split; [split; [discriminate|]|discriminate].
      intros (k' & m & (H & _ & _ & H' & _) & _). assert (k' = k) by congruence. subst k'. congruence. }
  destruct (lframe k =? 0) eqn:E.
  - apply Z.eqb_eq in E. cbn. split; [split; [discriminate|]|discriminate].
    intros (k' & m & (H & _) & P). assert (k' = k) by congruence. subst k'. lia.
  - apply Z.eqb_neq in E. assert (P : lframe k <=? 0 = false) by (apply Z.leb_gt; lia). rewrite P.
    destruct (aMem a) as [m|] eqn:M; cbn.
    + split.
      * split; [intros _|reflexivity]. exists k, m. split; [|lia]. unfold offered. rewrite Fi, Cx, M, Op.
        repeat (split; [reflexivity|]). exists (innerFmt c S_NONE). split; [exact Fk|].
        apply orb_true_iff in Ck as [C1|C1]; [left; apply Pc; exact C1|right; apply checks_in; exact C1].
      * intros k' Q _. injection Q as <-. unfold reader; cbn. apply Z.eqb_neq in E. rewrite E. auto.
    + split; [split; [discriminate|]|discriminate]. intros (k' & m & (_ & _ & H & _) & _). congruence.
Qed.
Print Assumptions C60_configured_partial.

(* Codecs without a fixed frame size (PCM and mu-law in the library) cannot be
   configured at all. *)
Theorem C60_pcm_refuted : forall c ch rate bit a k,
  aFind a = Some k -> lframe k = 0 -> snd (configure enc0 (full c ch rate bit) a) = false.
Proof.
  intros c ch rate bit a k Fi Lf.
  destruct (C60_configured_partial c ch rate bit a) as [H _].
  { intros k' Q. assert (k' = k) by congruence. subst. lia. }
  destruct (snd (configure enc0 (full c ch rate bit) a)); [|reflexivity].
  destruct (proj1 H eq_refl) as (k' & m & (Q & _) & P). assert (k' = k) by congruence. subst. lia.
Qed.
Print Assumptions C60_pcm_refuted.

(* Nor can one whose encoder, accepting any rate, lists none. *)
Theorem C60_unlisted_refuted : forall c ch rate bit a k,
  ~ In c [PCM; PCMU] -> aFind a = Some k -> 0 <= lframe k -> lrates k = None ->
  snd (configure enc0 (full c ch rate bit) a) = false.
Proof.
  intros c ch rate bit a k Nc Fi Lf Lr.
  destruct (C60_configured_partial c ch rate bit a) as [H _].
  { intros k' Q. assert (k' = k) by congruence. subst. lia. }
  destruct (snd (configure enc0 (full c ch rate bit) a)); [|reflexivity].
  destruct (proj1 H eq_refl) as (k' & m & (Q & _ & _ & _ & f & _ & [X|(_ & (l & X & _) & _)]) & P).
  - tauto.
  - assert (k' = k) by congruence. subst. congruence.
Qed.
Print Assumptions C60_unlisted_refuted.

(* The first request that names a codec is the last that has an effect, even
   if it fails. *)
Theorem C60_final_refuted : forall c ch rate bit a s0 l,
  ecodec s0 = AC_NONE -> c <> AC_NONE ->
  let s := fst (configure s0 (full c ch rate bit) a) in
  requests s l = (s, repeat false (length l)).
Proof.
  intros c ch rate bit a s0 l E N s.
  assert (Ec : ecodec s = c) by (unfold s; rewrite codec_after, E; reflexivity).
  clearbody s. induction l as [|[q b] l IH]; [reflexivity|]. cbn [requests length repeat].
  assert (X : configure s q b = (s, false)) by (unfold configure; rewrite Ec; destruct c; congruence).
  rewrite X, IH. reflexivity.
Qed.
Print Assumptions C60_final_refuted.

(* Whatever was asked for, an encoder that lets itself be connected to an
   input is open, and has room for the number of samples it asks for. *)
Theorem C60_guarded : forall l n,
  Forall (fun qa => (exists m, aMem (snd qa) = Some m) /\ forall k, aFind (snd qa) = Some k -> 0 <= lframe k) l ->
  reader (fst (requests enc0 l)) true = Some n ->
  let s := fst (requests enc0 l) in
  ectx s = Open /\ ecodec s <> AC_NONE /\ exists d, buf s = Some d /\ Z.of_nat (length d) = n.
Proof.
  intros l n F. assert (G : gate (fst (requests enc0 l))).
  { generalize gate0. generalize enc0. induction l as [|[q a] l IH]; intros s G; [exact G|].
    inversion F as [|? ? [M L] F2]; subst. cbn [requests]. pose proof (gate_step s q a G M L) as G1.
    destruct (configure s q a) as [s1 b]. specialize (IH F2 s1 G1). destruct (requests s1 l). exact IH. }
  unfold reader. destruct (spf (fst (requests enc0 l)) =? 0) eqn:E; [discriminate|]. intro Q. injection Q as <-.
  apply Z.eqb_neq in E. exact (proj2 (proj2 (proj2 G)) E).
Qed.
Print Assumptions C60_guarded.

(* -- The output ------------------------------------------------------------ *)

(* A queue with frames always has one to write to. *)
Theorem C60_slot : forall fuel max rear front,
  2 <= max -> 0 <= rear < max -> 0 <= front < max -> (0 < fuel)%nat ->
  exists r, forceGetRear fuel max true rear front = Some r /\ 0 <= r < max /\ (r + 1) mod max <> front.
Proof.
  intros [|fuel] max rear front M R F Fu; [lia|]. cbn [forceGetRear negb]. rewrite orb_false_r.
  destruct ((rear + 1) mod max =? front) eqn:E.
  - apply Z.eqb_eq in E.
    assert (N : ((rear + (max - 1)) mod max + 1) mod max <> front).
    { rewrite Zplus_mod_idemp_l. replace (rear + (max - 1) + 1) with (rear + 1 * max) by lia.
      rewrite Z_mod_plus_full, (Z.mod_small rear) by lia. intro Q. subst front.
      destruct (Z.eq_dec (rear + 1) max) as [X|X].
      - rewrite X, Z_mod_same_full in Q. lia.
      - rewrite Z.mod_small in Q by lia. lia. }
    exists ((rear + (max - 1)) mod max). split.
    + destruct fuel; cbn [forceGetRear negb]; rewrite orb_false_r; apply Z.eqb_neq in N; rewrite N; reflexivity.
    + split; [apply Z.mod_pos_bound; lia|exact N].
  - apply Z.eqb_neq in E. exists rear. auto.
Qed.
Print Assumptions C60_slot.

(* An encoder configured for MP3 gets a queue without frames, and looks for
   one to write to for ever. *)
Theorem C60_mp3_refuted : forall ch rate bit a fuel max rear front,
  writer (fst (configure enc0 (full MP3 ch rate bit) a)) = Some false /\
  forceGetRear fuel max false rear front = None.
Proof.
  intros. split.
  - unfold configure. cbn [enc0 ecodec full qCodec dflt]. unfold codingConfig. cbn [known].
    destruct (aFind a) as [k|]; [|reflexivity]. destruct (aCtx a); [|reflexivity].
    destruct (_ || _); [|reflexivity]. destruct (lopen _ _ _ _); [|reflexivity].
    destruct (if _ <=? 0 then None else _); reflexivity.
  - revert rear. induction fuel as [|fuel IH]; intro rear; cbn [forceGetRear negb]; rewrite orb_true_r; [reflexivity|apply IH].
Qed.
Print Assumptions C60_mp3_refuted.

(* The other codecs get frames. *)
Theorem C60_queue : forall c ch rate bit a, In c [PCM; PCMU; OPUS; AAC] ->
  writer (fst (configure enc0 (full c ch rate bit) a)) = Some true.
Proof.
  intros c ch rate bit a H. unfold configure. cbn [enc0 ecodec full qCodec dflt]. unfold codingConfig.
  destruct H as [<-|[<-|[<-|[<-|[]]]]]; cbn [known];
  (destruct (aFind a) as [k|]; [|reflexivity]); (destruct (aCtx a); [|reflexivity]);
  (destruct (_ || _); [|reflexivity]); (destruct (lopen _ _ _ _); [|reflexivity]);
  destruct (if _ <=? 0 then None else _); reflexivity.
Qed.
Print Assumptions C60_queue.

(* -- Frames ---------------------------------------------------------------- *)

(* A configured encoder is ready for frames. *)
Lemma configured_live : forall q a s, configure enc0 q a = (s, true) ->
  (forall k, aFind a = Some k -> 0 <= lframe k) ->
  live (Z.to_nat (spf s)) s /\ fifo s = [] /\ econv s = NoSwr.
Proof.
  intros q a s E L. unfold configure in E. cbn [enc0 ecodec] in E. unfold codingConfig in E.
  cbn [ecodec ech erate ebit ifmt efmt einp spf buf econv fifo prate enc0] in E.
  destruct (if known _ then aFind a else None) as [k|] eqn:Fi; [|discriminate].
  assert (Lk : 0 <= lframe k) by (destruct (known _); [exact (L k Fi)|discriminate]).
  destruct (aCtx a); [|discriminate]. destruct (_ || _); [|discriminate]. destruct (lopen _ _ _ _); [|discriminate].
  change (defaultSamples 0) with 0 in E.
  destruct (lframe k =? 0) eqn:Z0; [discriminate|]. apply Z.eqb_neq in Z0.
  assert (P : lframe k <=? 0 = false) by (apply Z.leb_gt; lia). rewrite P in E.
  destruct (aMem a) as [m|]; [|discriminate]. injection E as <-. cbn. split; [|auto].
  unfold live; cbn. split; [reflexivity|]. split.
  - eexists. split; [reflexivity|]. pose proof (fill_length (lframe k) m Lk). lia.
  - split; [lia|]. split; [discriminate|]. auto.
Qed.

(* If the converter makes as many samples as the encoder asks its input for,
   as it does when the rates are equal, the encoder is given exactly the
   converted samples, frame by frame, and every packet carries the stamps of
   the frame and its number of samples. *)
Theorem C60_exact_partial : forall alloc init q a s rs,
  (forall o i, alloc o i = true) -> (forall o i, init o i = true) ->
  (forall k, aFind a = Some k -> 0 <= lframe k) ->
  configure enc0 q a = (s, true) ->
  Forall (fun r => pfmt (rpar r) <> S_NONE /\ Z.of_nat (length (rnew r)) = spf s) rs ->
  exists s' xs, erun alloc init s rs = (s', xs) /\ Forall2 (encoded (Z.to_nat (spf s))) rs xs /\
    concat (map given xs) = made rs /\ fifo s' = [].
Proof.
  intros alloc init q a s rs HA HI L E F.
  destruct (configured_live q a s E L) as (Lv & Fi & _).
  assert (F' : Forall (fun r => pfmt (rpar r) <> S_NONE /\ length (rnew r) = Z.to_nat (spf s)) rs).
  { eapply Forall_impl; [|exact F]. cbn. intros r [A B]. split; [exact A|lia]. }
  clear F E. revert Lv F'. generalize (Z.to_nat (spf s)). intro n. revert s Fi.
  induction rs as [|r rs IH]; intros s Fi Lv F.
  - exists s, []. cbn. repeat split; auto.
  - inversion F as [|? ? [Nf Ln] F2]; subst.
    destruct (eprocess_spec alloc init HA HI _ s r Lv Nf) as (s1 & d & B & Lv1 & Fi1 & B1 & E). rewrite Fi in *. cbn [app] in *.
    rewrite Nat.min_id in *. rewrite skipn_all in Fi1. rewrite firstn_all in *.
    destruct (Lv) as (_ & (d' & Bd & Ld) & Pn & _). assert (d' = d) by congruence. subst d'.
    destruct (IH s1 Fi1 Lv1 F2) as (s2 & xs & E2 & R2 & G2 & Z2).
    assert (Sk : skipn (length (rnew r)) d = []) by (rewrite <- Ld; apply skipn_all).
    exists s2. cbn [erun]. rewrite E.
    destruct (length (rnew r)) as [|w] eqn:Lw; [lia|].
    rewrite Sk, app_nil_r. cbn [snd].
    destruct (renc r) eqn:Er; rewrite E2; eexists; (split; [reflexivity|]); (split; [constructor; [|exact R2]; unfold encoded; rewrite Er; rewrite ?Ld; auto|]);
    (split; [unfold made; cbn; rewrite G2; reflexivity|exact Z2]).
Qed.
Print Assumptions C60_exact_partial.

(* Whatever the converter makes: no frame crashes the encoder, and no
   converted sample is lost, doubled or moved: those written for each frame,
   one after the other, then those waiting, are the converted samples. *)
Theorem C60_nothing_lost_partial : forall alloc init q a s rs,
  (forall o i, alloc o i = true) -> (forall o i, init o i = true) ->
  (forall k, aFind a = Some k -> 0 <= lframe k) ->
  configure enc0 q a = (s, true) ->
  Forall (fun r => pfmt (rpar r) <> S_NONE) rs ->
  exists s' xs, erun alloc init s rs = (s', xs) /\ length xs = length rs /\
    Forall (fun x => snd x <> ECrash) xs /\
    concat (map fresh xs) ++ fifo s' = made rs.
Proof.
  intros alloc init q a s rs HA HI L E F.
  destruct (configured_live q a s E L) as (Lv & Fi & _). clear E.
  enough (X : exists s' xs, erun alloc init s rs = (s', xs) /\ length xs = length rs /\
    Forall (fun x => snd x <> ECrash) xs /\ concat (map fresh xs) ++ fifo s' = fifo s ++ made rs).
  { rewrite Fi in X. exact X. }
  clear Fi. revert Lv. generalize (Z.to_nat (spf s)). intro n. revert s.
  induction rs as [|r rs IH]; intros s Lv.
  - exists s, []. cbn. unfold made; cbn. rewrite app_nil_r. auto.
  - inversion F as [|? ? Nf F2]; subst.
    destruct (eprocess_spec alloc init HA HI _ s r Lv Nf) as (s1 & d & B & Lv1 & Fi1 & B1 & E).
    set (all := fifo s ++ rnew r) in *. set (w := Nat.min n (length all)) in *.
    destruct (IH F2 s1 Lv1) as (s2 & xs & E2 & R2 & G2 & Z2).
    assert (M : fifo s ++ made (r :: rs) = all ++ made rs) by (unfold made, all; cbn; rewrite app_assoc; reflexivity).
    exists s2. cbn [erun]. rewrite E.
    assert (Wl : (w <= length all)%nat) by (unfold w; lia).
    destruct w as [|v] eqn:W.
    + cbn [snd]. rewrite E2. eexists. split; [reflexivity|]. split; [cbn; lia|]. split; [constructor; [discriminate|exact G2]|].
      cbn [map concat fresh app]. rewrite M, Z2, Fi1. reflexivity.
    + assert (Fr : forall y, fresh (Some (firstn (S v) all ++ skipn (S v) d), S v, y) = firstn (S v) all).
      { intro y. unfold fresh. rewrite firstn_app, firstn_length_le, Nat.sub_diag by exact Wl.
        rewrite firstn_O, app_nil_r, firstn_firstn, Nat.min_id. reflexivity. }
      cbn [snd]. destruct (renc r); rewrite E2; eexists; (split; [reflexivity|]); (split; [cbn; lia|]);
      (split; [constructor; [discriminate|exact G2]|]);
      cbn [map concat]; rewrite Fr, <- app_assoc, Z2, Fi1, M, app_assoc, firstn_skipn; reflexivity.
Qed.
Print Assumptions C60_nothing_lost_partial.

(* -- What does not hold ----------------------------------------------------- *)

(* If the converter makes fewer samples than a frame holds, as it does when
   the rate is lowered, the encoder is given the rest of the frame before
   after them: between packets, sound is repeated. *)
Theorem C60_padding_refuted : forall alloc init n s r d,
  (forall o i, alloc o i = true) -> (forall o i, init o i = true) ->
  live n s -> pfmt (rpar r) <> S_NONE -> fifo s = [] -> buf s = Some d ->
  (0 < length (rnew r) < n)%nat ->
  exists s' y, eprocess alloc init s r = (s', (Some (rnew r ++ skipn (length (rnew r)) d), length (rnew r), y)) /\
    length (rnew r ++ skipn (length (rnew r)) d) = n /\ fifo s' = [] /\ live n s'.
Proof.
  intros alloc init n s r d HA HI Lv Nf Fi Bd Ln.
  destruct (eprocess_spec alloc init HA HI _ s r Lv Nf) as (s1 & d' & B & Lv1 & Fi1 & B1 & E).
  assert (d' = d) by congruence. subst d'. rewrite Fi in *. cbn [app] in *.
  rewrite Nat.min_r in * by lia. rewrite firstn_all in *. rewrite skipn_all in Fi1.
  destruct Lv as (_ & (d' & Bd' & Ld) & _). assert (d' = d) by congruence. subst d'.
  exists s1. destruct (length (rnew r)) as [|v] eqn:W; [lia|].
  eexists. split; [exact E|]. split; [|auto]. rewrite app_length, skipn_length, W. lia.
Qed.
Print Assumptions C60_padding_refuted.

(* ... so that the encoded sound is longer than the sound. *)
Theorem C60_longer_refuted : forall alloc init n rs s,
  (forall o i, alloc o i = true) -> (forall o i, init o i = true) ->
  live n s -> fifo s = [] ->
  Forall (fun r => pfmt (rpar r) <> S_NONE /\ (0 < length (rnew r) < n)%nat) rs ->
  length (concat (map given (snd (erun alloc init s rs)))) = (length rs * n)%nat.
Proof.
  intros alloc init n rs s HA HI. revert s. induction rs as [|r rs IH]; intros s Lv Fi F; [reflexivity|].
  inversion F as [|? ? [Nf Ln] F2]; subst.
  pose proof Lv as (_ & (d & Bd & _) & _).
  assert (W : exists s' y, eprocess alloc init s r = (s', (Some (rnew r ++ skipn (length (rnew r)) d), length (rnew r), y)) /\
    length (rnew r ++ skipn (length (rnew r)) d) = n /\ fifo s' = [] /\ live n s' /\ y <> ECrash).
  { destruct (eprocess_spec alloc init HA HI _ s r Lv Nf) as (s1 & d' & B & Lv1 & Fi1 & B1 & E).
    assert (d' = d) by congruence. subst d'. rewrite Fi in *. cbn [app] in *.
    rewrite Nat.min_r in * by lia. rewrite firstn_all in *. rewrite skipn_all in Fi1.
    destruct Lv as (_ & (d' & Bd' & Ld) & _). assert (d' = d) by congruence. subst d'.
    exists s1. destruct (length (rnew r)) as [|v] eqn:W; [lia|].
    eexists. split; [exact E|]. split; [rewrite app_length, skipn_length, W; lia|]. split; [exact Fi1|]. split; [exact Lv1|].
    destruct (renc r); discriminate. }
  destruct W as (s' & y & E & Lg & Fi' & Lv' & Ny). cbn [erun]. rewrite E. cbn [snd].
  specialize (IH s' Lv' Fi' F2). destruct (erun alloc init s' rs) as [s2 xs]. cbn [snd] in IH.
  destruct y; [congruence| |]; cbn [snd map concat given length]; rewrite app_length, Lg, IH; lia.
Qed.
Print Assumptions C60_longer_refuted.

(* If it makes more, as when the rate is raised, the rest waits, and with the
   frames coming at their pace the delay grows beyond any bound. *)
Theorem C60_backlog_refuted : forall alloc init n ro ri bound,
  (forall o i, alloc o i = true) -> (forall o i, init o i = true) ->
  (0 < n)%nat -> 0 < ri < ro -> 0 <= bound ->
  exists k, forall s rs, live n s -> Z.of_nat (length rs) = k ->
    Forall (fun r => pfmt (rpar r) <> S_NONE) rs ->
    Z.of_nat (length (made rs)) = pace ro ri (Z.of_nat n) k ->
    bound < Z.of_nat (length (fifo (fst (erun alloc init s rs)))).
Proof.
  intros alloc init n ro ri bound HA HI Pn R Bd. exists ((bound + 1) * ri). intros s rs Lv Lk F Mk.
  assert (G : (length (fifo s) + length (made rs) <= length (fifo (fst (erun alloc init s rs))) + length rs * n)%nat).
  { clear Lk Mk. revert s Lv. induction rs as [|r rs IH]; intros s Lv; [cbn; lia|].
    inversion F as [|? ? Nf F2]; subst.
    destruct (eprocess_spec alloc init HA HI _ s r Lv Nf) as (s1 & d & B & Lv1 & Fi1 & B1 & E).
    set (all := fifo s ++ rnew r) in *. set (w := Nat.min n (length all)) in *.
    specialize (IH F2 s1 Lv1). cbn [erun]. rewrite E.
    assert (A : length (fifo s1) = (length all - w)%nat) by (rewrite Fi1, skipn_length; reflexivity).
    assert (A2 : length all = (length (fifo s) + length (rnew r))%nat) by (unfold all; apply app_length).
    assert (A3 : length (made (r :: rs)) = (length (rnew r) + length (made rs))%nat) by (unfold made; cbn; apply app_length).
    assert (A4 : (w <= n)%nat) by (unfold w; lia).
    destruct (erun alloc init s1 rs) as [s2 xs] eqn:E2. cbn [fst] in IH.
    destruct w; cbn [snd]; [|destruct (renc r); cbn [snd]]; cbn [fst length]; lia. }
  unfold pace in Mk. replace ((bound + 1) * ri * Z.of_nat n * ro) with ((bound + 1) * Z.of_nat n * ro * ri) in Mk by ring.
  rewrite Z.div_mul in Mk by lia.
  assert (Q : Z.of_nat (length rs) * Z.of_nat n = (bound + 1) * ri * Z.of_nat n) by (rewrite Lk; reflexivity).
  assert (D : (bound + 1) * Z.of_nat n * ro - (bound + 1) * ri * Z.of_nat n = (bound + 1) * Z.of_nat n * (ro - ri)) by ring.
  assert (X : bound + 1 <= (bound + 1) * Z.of_nat n * (ro - ri)).
  { assert (1 <= Z.of_nat n * (ro - ri)) by nia. rewrite <- Z.mul_assoc. nia. }
  apply Nat2Z.inj_le in G. rewrite !Nat2Z.inj_add, Nat2Z.inj_mul in G. lia.
Qed.
Print Assumptions C60_backlog_refuted.

(* An input of another format, rate or number of channels is taken, and
   converted as the first one was. *)
Theorem C60_conversion_fixed_refuted : forall alloc init s o i r,
  (forall o i, alloc o i = true) -> econv s = Ready o i ->
  econv (fst (eprocess alloc init s r)) = Ready o i.
Proof.
  intros alloc init s o i r HA C. unfold eprocess, ereconf.
  destruct (par_eqb (einp s) (rpar r)).
  - rewrite C. destruct (buf s) as [d|]; [|exact C].
    destruct (Nat.min _ _); [reflexivity|]. cbn [setIO ectx]. destruct (ectx s); reflexivity.
  - rewrite HA, C. cbn [setIO econv buf]. destruct (buf s) as [d|]; [|exact C || reflexivity].
    destruct (Nat.min _ _); [reflexivity|]. cbn [setIO ectx]. destruct (ectx s); reflexivity.
Qed.
Print Assumptions C60_conversion_fixed_refuted.

(* A converter that could not be initialised for an input is not tried again:
   all its frames are refused. *)
Theorem C60_init_final_refuted : forall alloc init s rs,
  econv s = Raw -> Forall (fun r => rpar r = einp s) rs ->
  erun alloc init s rs = (s, map (fun _ => (None, O, ERefused)) rs).
Proof.
  intros alloc init s rs C. induction rs as [|r rs IH]; intro F; [reflexivity|]. inversion F as [|? ? E F2]; subst.
  assert (X : eprocess alloc init s r = (s, (None, O, ERefused))).
  { unfold eprocess, ereconf. rewrite E.
    assert (Q : par_eqb (einp s) (einp s) = true) by (apply par_eqb_eq; reflexivity). rewrite Q, C. reflexivity. }
  cbn [erun map]. rewrite X. cbn [snd]. rewrite (IH F2). reflexivity.
Qed.
Print Assumptions C60_init_final_refuted.

(* Frames longer than a tenth of a second do not fit the frame the input
   buffer fills: with 1024 samples (AAC), at any rate below 10240 Hz. *)
Import AudioBufIface AudioBufModel.
Lemma memcpy_len : forall (B : Type) (dst : list B) d src so n x, memcpy dst d src so n = Some x -> length x = length dst.
Proof.
  intros B dst d src so n x. unfold memcpy. destruct (_ && _) eqn:E; [|discriminate].
  apply andb_true_iff in E as [E1 E2]. apply Nat.leb_le in E1, E2.
  intro Q. injection Q as <-. rewrite !app_length, !firstn_length, !skipn_length. lia.
Qed.

Theorem C60_low_rate_refuted : forall (B : Type) (c : acfg) (s : @abuf B) o os,
  afill s = true -> snd (aout s) = o :: os -> length o = setupCap (AudioBufIface.rate c) (bps c) ->
  (0 < bps c)%nat -> (100 * AudioBufIface.rate c / 1000 < osz c)%nat -> (0 < chLen c)%nat ->
  (osz c * bps c <= aelem s)%nat ->
  getFront c s = OutOfBounds.
Proof.
  intros B c s o os Fl Ho Lo Pb Big PL El. unfold getFront. rewrite Fl, Ho. cbn [negb]. unfold popFront.
  assert (E1 : (aelem s <? osz c * bps c)%nat = false) by (apply Nat.ltb_ge; exact El). rewrite E1.
  assert (E2 : (chLen c =? 0)%nat = false) by (apply Nat.eqb_neq; lia). rewrite E2.
  assert (Sm : (length o < osz c * bps c)%nat) by (rewrite Lo; unfold setupCap; nia).
  set (fm := (afront s mod chLen c)%nat). set (bytes := (osz c * bps c)%nat) in *.
  assert (Fm : (fm < chLen c)%nat) by (apply Nat.mod_upper_bound; lia).
  assert (N : forall (d : list B) a b k, (length o < a + k)%nat -> memcpy o a d b k = None).
  { intros d a b k H. unfold memcpy. assert (Q : (a + k <=? length o)%nat = false) by (apply Nat.leb_gt; exact H).
    rewrite Q, andb_false_r. reflexivity. }
  destruct (fm + bytes <? chLen c)%nat eqn:E3.
  - destruct (adata s) as [|d ds]; cbn [map2o]; [reflexivity|]. rewrite (N d 0%nat fm bytes) by lia. reflexivity.
  - apply Nat.ltb_ge in E3. destruct (adata s) as [|d ds]; cbn [map2o]; [reflexivity|].
    destruct (memcpy o 0 d fm (chLen c - fm)) as [o1|] eqn:M; [|reflexivity].
    apply memcpy_len in M.
    assert (Q : memcpy o1 (chLen c - fm) d 0 (bytes - (chLen c - fm)) = None).
    { unfold memcpy. assert (Q : (chLen c - fm + (bytes - (chLen c - fm)) <=? length o1)%nat = false) by (apply Nat.leb_gt; lia).
      rewrite Q, andb_false_r. reflexivity. }
    rewrite Q. reflexivity.
Qed.
Print Assumptions C60_low_rate_refuted.

(* -- Concrete cases --------------------------------------------------------- *)

Definition yes (_ _ : params) : bool := true.
Definition lavc (f : Z) : answers :=
  mkAns (Some (mkLib [S16] (Some [48000; 44100]) (Some [1; 2]) (fun _ _ _ => true) f)) true (Some []).
Definition small : enc := fst (configure enc0 (full AAC 2 48000 64000) (lavc 4)).
Definition fr (n : Z) (l : list Z) : eround := mkER (mkPar FLTP 2 48000) (100 * n) (10 * n) n l (EPacket n 7).

Example C60_small : configure enc0 (full AAC 2 48000 64000) (lavc 4) = (small, true) /\ reader small true = Some 4 /\ writer small = Some true.
Proof. repeat split. Qed.

Example C60_offered : offered AAC 2 48000 64000 (lavc 4) (mkLib [S16] (Some [48000; 44100]) (Some [1; 2]) (fun _ _ _ => true) 4) [].
Proof.
  unfold offered. repeat (split; [reflexivity|]). exists S16. split; [left; cbn; tauto|].
  right. cbn. split; [tauto|]. split; eexists; (split; [reflexivity|cbn; tauto]).
Qed.

Example C60_live : live 4 small.
Proof. unfold live; cbn. split; [reflexivity|]. split; [eexists; split; reflexivity|]. split; [lia|]. split; [discriminate|auto]. Qed.

Example C60_equal_rates :
  snd (erun yes yes small [fr 1 [1; 2; 3; 4]; fr 2 [5; 6; 7; 8]]) =
  [(Some [1; 2; 3; 4], 4%nat, EDelivered (mkP 1 7 4 100 10 1)); (Some [5; 6; 7; 8], 4%nat, EDelivered (mkP 2 7 4 200 20 2))].
Proof. reflexivity. Qed.

(* lowering the rate: 4 is encoded three times, 7 twice *)
Example C60_lowered :
  map given (snd (erun yes yes small [fr 1 [1; 2; 3; 4]; fr 2 [5; 6; 7]; fr 3 [8; 9]])) = [[1; 2; 3; 4]; [5; 6; 7; 4]; [8; 9; 7; 4]].
Proof. reflexivity. Qed.

(* raising it: samples wait *)
Example C60_raised :
  let x := erun yes yes small [fr 1 [1; 2; 3; 4; 5]; fr 2 [6; 7; 8; 9; 10]] in
  map given (snd x) = [[1; 2; 3; 4]; [5; 6; 7; 8]] /\ fifo (fst x) = [9; 10].
Proof. split; reflexivity. Qed.

Example C60_retry : snd (requests enc0 [(full AAC 6 48000 64000, lavc 4); (full AAC 2 48000 64000, lavc 4)]) = [false; false].
Proof. reflexivity. Qed.

Example C60_unnamed_retry : snd (requests enc0 [(mkEReq None None (Some 48000) None, lavc 4); (full AAC 2 48000 64000, lavc 4)]) = [false; true].
Proof. reflexivity. Qed.

(* a buffer at 1000 Hz asked for frames of 150 samples *)
Example C60_low_rate :
  arun 0%nat (mkCfg 1000 1 200 100 150 5 [6]) (newBuf 0%nat (mkCfg 1000 1 200 100 150 5 [6]) 1)
    [Put 0 100 [repeat 1%nat 100]; Put 100000 100 [repeat 2%nat 100]; Fetch] = OutOfBounds.
Proof. vm_compute. reflexivity. Qed.
