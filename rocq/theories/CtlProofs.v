From Coq Require Import Ascii String.
From Verif Require Import Base ZMap JsonModel JsonSpec JsonProofs JsonProps NamesModel NamesProps NetModel PipeModel PipeSpec PipeProofs CtlModel CtlSpec.
Local Open Scope list_scope.
Notation length := List.length.

Lemma streq_refl s : streq s s = true.
Proof. unfold streq. destruct list_eq_dec; congruence. Qed.
Lemma streq_neq a b : a <> b -> streq a b = false.
Proof. unfold streq. destruct list_eq_dec; congruence. Qed.

Lemma child_member c k v : member c k v -> get k c = Some v.
Proof.
  intros (a & b & -> & NA & _). unfold get. induction a as [|[k' v'] a IH]; cbn [app child].
  - rewrite streq_refl. reflexivity.
  - cbn [map fst In] in NA. rewrite streq_neq by (intros E; apply NA; left; exact E). apply IH. intros I0. apply NA. right. exact I0.
Qed.
Lemma child_absent c k : ~ In (lit k) (map fst c) -> get k c = None.
Proof.
  unfold get. induction c as [|[k' v'] c IH]; intros N; [reflexivity|]. cbn [child]. cbn [map fst In] in N.
  rewrite streq_neq by (intros E; apply N; left; exact E). apply IH. tauto.
Qed.

(** *** Integers *)
Lemma digit_char d : (0 <= d <= 9)%Z -> digit (ascii_of_N (48 + Z.to_N d)) = Some d.
Proof.
  intros H. assert (E : In d [0;1;2;3;4;5;6;7;8;9]%Z).
  { destruct (Z.eq_dec d 0), (Z.eq_dec d 1), (Z.eq_dec d 2), (Z.eq_dec d 3), (Z.eq_dec d 4), (Z.eq_dec d 5), (Z.eq_dec d 6), (Z.eq_dec d 7), (Z.eq_dec d 8), (Z.eq_dec d 9); cbn; try lia. }
  repeat (destruct E as [<- | E]; [vm_compute; reflexivity|]). destruct E.
Qed.
Lemma digits_spec s z : digits s z -> (0 <= z)%Z /\ (forall acc, exists k, digitsFrom acc s = (acc * 10 ^ Z.of_nat (length s) + z)%Z /\ k = 0) /\
  Forall (fun c => digit c <> None) s.
Proof.
  assert (G : forall s acc c d, Forall (fun c => digit c <> None) s -> digit c = Some d ->
            digitsFrom acc (s ++ [c]) = (10 * digitsFrom acc s + d)%Z).
  { clear. induction s as [|x s IH]; intros acc c d F C; cbn [app digitsFrom].
    - rewrite C. reflexivity.
    - inversion F as [|? ? Fx Fs]; subst. destruct (digit x) eqn:X; [|congruence]. apply IH; assumption. }
  induction 1 as [| s z d D (P & V & F) R].
  - split; [lia|]. split; [|constructor]. intros acc. exists 0. split; [cbn; lia | reflexivity].
  - split; [lia|]. split.
    + intros acc. exists 0. split; [|reflexivity]. rewrite (G _ _ _ d F (digit_char d R)). destruct (V acc) as [_ [E _]]. rewrite E.
      rewrite app_length. cbn [length]. replace (Z.of_nat (length s + 1)) with (1 + Z.of_nat (length s))%Z by lia.
      rewrite Z.pow_add_r by lia. lia.
    + apply Forall_app. split; [exact F|]. constructor; [|constructor]. rewrite (digit_char d R). discriminate.
Qed.
Lemma digits_value s z : digits s z -> digitsFrom 0 s = z.
Proof. intros D. destruct (digits_spec s z D) as (_ & V & _). destruct (V 0%Z) as [_ [E _]]. rewrite E. lia. Qed.

Lemma intIs_value s z : intIs s z -> toIntText s = z.
Proof.
  intros [B [[N D] | (t & -> & N & D)]]; unfold int32 in B; unfold toIntText, INT_MAX, INT_MIN.
  - destruct (digits_spec s z D) as (_ & _ & F). destruct s as [|c t]; [congruence|].
    destruct (is c "-") eqn:M.
    + rewrite is_eq in M. subst c. inversion F as [|? ? X]; subst. exfalso. apply X. reflexivity.
    + rewrite (digits_value _ _ D). lia.
  - rewrite is_refl. rewrite (digits_value _ _ D). lia.
Qed.

Lemma digit_good c : digit c <> None -> In c (list_ascii_of_string "0123456789.-").
Proof. destruct c as [[] [] [] [] [] [] [] []]; cbn; intros H; try (exfalso; apply H; reflexivity); tauto. Qed.
Lemma intIs_good s z : intIs s z -> goodNumber s.
Proof.
  intros [B [[N D] | (t & -> & N & D)]]; split; try assumption; try discriminate.
  - destruct (digits_spec _ _ D) as (_ & _ & F). eapply Forall_impl; [|exact F]. exact digit_good.
  - destruct (digits_spec _ _ D) as (_ & _ & F). constructor; [cbn; tauto|]. eapply Forall_impl; [|exact F]. exact digit_good.
Qed.

Lemma decimal_digits fuel : forall n, (0 <= n < 10 ^ Z.of_nat fuel)%Z -> digits (decimal fuel n) n /\ (fuel <> 0%nat -> decimal fuel n <> []).
Proof.
  induction fuel as [|f IH]; intros n H.
  - cbn in H. assert (n = 0)%Z by lia. subst. split; [constructor | congruence].
  - cbn [decimal]. destruct (n <? 10)%Z eqn:L.
    + apply Z.ltb_lt in L. split; [|discriminate].
      replace n with (10 * 0 + n)%Z at 2 by lia. replace (digitChar n) with (ascii_of_N (48 + Z.to_N n)).
      * apply (dg_snoc [] 0 n dg_nil). lia.
      * unfold digitChar. f_equal. lia.
    + apply Z.ltb_ge in L. split; [|intros _ E; destruct (decimal f (n / 10)); discriminate E].
      assert (M : (0 <= n mod 10 < 10)%Z) by (apply Z.mod_pos_bound; lia).
      replace n with (10 * (n / 10) + n mod 10)%Z at 3 by (symmetry; apply Z.div_mod; lia).
      replace (digitChar (n mod 10)) with (ascii_of_N (48 + Z.to_N (n mod 10))).
      * apply dg_snoc; [|lia]. apply IH. split; [apply Z.div_pos; lia|]. apply Z.div_lt_upper_bound; [lia|].
        rewrite Nat2Z.inj_succ, Z.pow_succ_r in H by lia. lia.
      * unfold digitChar. f_equal. lia.
Qed.
Lemma intText_is z : int32 z -> intIs (intText z) z.
Proof.
  intros B. split; [exact B|]. unfold int32 in B. unfold intText. destruct (z <? 0)%Z eqn:L.
  - apply Z.ltb_lt in L. right. eexists. split; [reflexivity|].
    destruct (decimal_digits 20 (- z)) as [D N]; [change (10 ^ Z.of_nat 20)%Z with 100000000000000000000%Z; lia|]. split; [apply N; discriminate | exact D].
  - apply Z.ltb_ge in L. left. destruct (decimal_digits 20 z) as [D N]; [change (10 ^ Z.of_nat 20)%Z with 100000000000000000000%Z; lia|].
    split; [apply N; discriminate | exact D].
Qed.

(** *** Decoding *)
Lemma number_get ps k z : number ps k z -> exists s, get k ps = Some (Val VT_NUMBER s) /\ toIntText s = z.
Proof. intros (s & M & I0). exists s. split; [apply child_member, M | apply intIs_value, I0]. Qed.

Lemma decode_params made a ps c : params made a ps c -> exists fail, decode made (lit a) ps = DCmd c fail.
Proof.
  intros P. inversion P as [ps' id t Hid Ht Hty | ps' id org dst ow dr ms mids H1 H2 H3 H4 H5 H6 H7 | ps' id Hid | ps' id Hid | ps']; subst;
    unfold decode;
    repeat match goal with |- context [streq (lit ?x) (lit ?y)] =>
      let b := eval vm_compute in (streq (lit x) (lit y)) in change (streq (lit x) (lit y)) with b end; cbn iota.
  - unfold decodeCreateFilter. destruct (number_get _ _ _ Hid) as (s & -> & E). rewrite (child_member _ _ _ Hty). cbn. rewrite E.
    unfold lit. rewrite string_of_list_ascii_of_string. destruct filter_type_names as [R _]. rewrite R. eauto.
  - unfold decodeCreatePath.
    destruct (number_get _ _ _ H1) as (s1 & -> & <-), (number_get _ _ _ H2) as (s2 & -> & <-), (number_get _ _ _ H3) as (s3 & -> & <-),
      (number_get _ _ _ H4) as (s4 & -> & <-), (number_get _ _ _ H5) as (s5 & -> & <-). rewrite (child_member _ _ _ H6). cbn [toInt].
    assert (T : toInts ms = Some mids).
    { clear - H7. induction H7 as [|n z ms mids (s & -> & I0) F IH]; [reflexivity|]. cbn [toInts toInt]. rewrite IH, (intIs_value _ _ I0). reflexivity. }
    rewrite T. eauto.
  - unfold decodeId. destruct (number_get _ _ _ Hid) as (s & -> & <-). cbn [isNum toInt]. eauto.
  - unfold decodeId. destruct (number_get _ _ _ Hid) as (s & -> & <-). cbn [isNum toInt]. eauto.
  - eauto.
Qed.

Lemma event_means p e ev c out pushed : means (cmade e) ev c ->
  match pcmd p (penv e) c with
  | Bad b => processEvent p e ev out pushed = Bugged b
  | Ok (p', a) => exists kv, processEvent p e ev out pushed = Done p' (out ++ [kv]) pushed /\
                             fst kv = lit "error" /\ (snd kv = Val VT_NULL [] <-> a = true)
  end.
Proof.
  intros (m & a & ps & -> & A & P & F & D). unfold processEvent.
  rewrite (child_member _ _ _ A), (child_member _ _ _ P), (child_absent _ _ F). cbn [nodeText toString].
  destruct (decode_params _ _ _ _ D) as [fail ->]. destruct (pcmd p (penv e) c) as [[p' []] | b].
  - eexists. split; [reflexivity|]. cbn. tauto.
  - eexists. split; [reflexivity|]. cbn. split; [reflexivity|]. split; discriminate.
  - reflexivity.
Qed.

Lemma events_means es evs : forall cs p i out pushed answers0,
  Forall2 (fun ev c => True) evs cs -> (forall k ev c, nth_error evs k = Some ev -> nth_error cs k = Some c -> means (cmade (es (i + k))) ev c) ->
  reports out answers0 ->
  match commands p es i cs with
  | Bad b => processAll p es i evs out pushed = Bugged b
  | Ok (p', answers) => exists out', processAll p es i evs out pushed = Done p' out' pushed /\ reports out' (answers0 ++ answers)
  end.
Proof.
  induction evs as [|ev evs IH]; intros cs p i out pushed answers0 F M R; inversion F as [|? c ? cs' _ F']; subst.
  - cbn. exists out. split; [reflexivity|]. rewrite app_nil_r. exact R.
  - cbn [commands processAll]. pose proof (event_means p (es i) ev c out pushed) as E.
    assert (M0 : means (cmade (es i)) ev c). { specialize (M 0 ev c eq_refl eq_refl). rewrite Nat.add_0_r in M. exact M. }
    specialize (E M0). destruct (pcmd p (penv (es i)) c) as [[p1 a] | b]; [|rewrite E; reflexivity].
    destruct E as (kv & E & K1 & K2). rewrite E. cbn [bind].
    specialize (IH cs' p1 (S i) (out ++ [kv]) pushed (answers0 ++ [a]) F').
    assert (M' : forall k ev0 c0, nth_error evs k = Some ev0 -> nth_error cs' k = Some c0 -> means (cmade (es (S i + k))) ev0 c0).
    { intros k ev0 c0 H1 H2. specialize (M (S k) ev0 c0 H1 H2). replace (S i + k) with (i + S k) by lia. exact M. }
    assert (R' : reports (out ++ [kv]) (answers0 ++ [a])).
    { apply Forall2_app; [exact R|]. constructor; [tauto | constructor]. }
    specialize (IH M' R'). cbn [fst snd]. destruct (commands p1 es (S i) cs') as [[p2 answers] | b]; cbn [bind fst snd].
    + destruct IH as (out' & IH & RR). exists out'. split; [exact IH|]. rewrite <- app_assoc in RR. exact RR.
    + exact IH.
Qed.

(** *** The buffer *)
Lemma cstr_id s : ~ In "000"%char s -> cstr s = s.
Proof.
  induction s as [|c t IH]; intros N; [reflexivity|]. cbn [cstr]. destruct (is c "000") eqn:E.
  - rewrite is_eq in E. subst c. exfalso. apply N. left. reflexivity.
  - rewrite IH; [reflexivity|]. intros I0. apply N. right. exact I0.
Qed.
Lemma inBuffer_id m : (N.of_nat (length m) <= MSG_MAX)%N -> ~ In "000"%char m -> inBuffer m = m.
Proof. intros L N. unfold inBuffer. rewrite firstn_all2 by lia. apply cstr_id, N. Qed.

(** *** Any message is a list of commands *)
Lemma event_reach p h e ev out pushed p' out' pushed' : phist p h -> processEvent p e ev out pushed = Done p' out' pushed' ->
  exists h', phist p' (h ++ h').
Proof.
  intros H E. unfold processEvent in E.
  assert (SAME : p' = p -> exists h', phist p' (h ++ h')). { intros ->. exists []. rewrite app_nil_r. exact H. }
  destruct ev as [? ? | c | ?]; try discriminate E.
  destruct (get "action" c) as [a|]; [|inversion E; subst; auto]. destruct (get "params" c) as [ps|]; [|inversion E; subst; auto].
  assert (INT : match nodeText a, ps with
            | Some action, Obj params =>
                match decode (cmade e) action params with
                | DThrow => Thrown
                | DError t => Done p (out ++ err t) pushed
                | DState => Done p (out ++ cstate e p) pushed
                | DCmd cm fail =>
                    match pcmd p (penv e) cm with
                    | Bad b => Bugged b
                    | Ok (p', true) => Done p' (out ++ noErr) pushed
                    | Ok (p', false) => Done p' (out ++ err fail) pushed
                    end
                end
            | _, _ => Thrown
            end = Done p' out' pushed' -> exists h', phist p' (h ++ h')).
  { clear E. intros E. destruct (nodeText a) as [action|]; [|discriminate E]. destruct ps as [? ? | params | ?]; try discriminate E.
    destruct (decode (cmade e) action params) as [cm fail | | t |]; [| inversion E; subst; auto | inversion E; subst; auto | discriminate E].
    destruct (pcmd p (penv e) cm) as [[q b] | b] eqn:X; [|discriminate E].
    assert (q = p') by (destruct b; inversion E; reflexivity). subst q. exists [(cm, b)]. eapply ph_snoc; eauto. }
  destruct (get "filterId" c) as [[[] s | ? | ?]|]; try exact (INT E).
  destruct (mmem (toIntText s) (pfilters p)); inversion E; subst; auto.
Qed.
Lemma events_reach es evs : forall p h i out pushed p' out' pushed', phist p h ->
  processAll p es i evs out pushed = Done p' out' pushed' -> exists h', phist p' (h ++ h').
Proof.
  induction evs as [|ev evs IH]; intros p h i out pushed p' out' pushed' H E; cbn [processAll] in E.
  - inversion E; subst. exists []. rewrite app_nil_r. exact H.
  - destruct (processEvent p (es i) ev out pushed) as [p1 out1 pu1 | | b] eqn:X; try discriminate E.
    destruct (event_reach _ _ _ _ _ _ _ _ _ H X) as [h1 H1]. destruct (IH _ _ _ _ _ _ _ _ H1 E) as [h2 H2].
    exists (h1 ++ h2). rewrite app_assoc. exact H2.
Qed.
Lemma request_reach p h es root p' out pushed : phist p h -> processRequest p es root = Done p' out pushed -> exists h', phist p' (h ++ h').
Proof.
  intros H E. unfold processRequest in E. destruct root as [? ? | c | ?]; try discriminate E.
  assert (SAME : p' = p -> exists h', phist p' (h ++ h')). { intros ->. exists []. rewrite app_nil_r. exact H. }
  destruct (get "events" c) as [[? ? | ? | evs]|]; try (inversion E; subst; auto; fail).
  eapply events_reach; eauto.
Qed.

Definition okParser (ps : parser) : Prop := needs (ptokens ps) <= length (pdata ps).
Lemma session_inv ps p h : session ps p h -> okParser ps /\ exists ch, phist p ch.
Proof.
  induction 1 as [| ps p h es m ps' p' r pushed S0 [OK [ch H]] E | ps p h e c p' a S0 [OK [ch H]] E].
  - split; [unfold okParser; cbn; lia | exists []; constructor].
  - unfold serve in E. pose proof (parse_queues ps (Obj []) (inBuffer m) OK) as Q.
    destruct (parse ps (Obj []) (inBuffer m)) as [ps1 root | ps1 root |]; [| | discriminate E].
    + destruct (processRequest p es root) as [p1 out pu | | b] eqn:X; try discriminate E. inversion E; subst.
      split; [unfold okParser; tauto|]. destruct (request_reach _ _ _ _ _ _ _ H X) as [h' H']. eauto.
    + inversion E; subst. split; [exact Q | eauto].
  - split; [exact OK|]. eexists. eapply ph_snoc; eauto.
Qed.
