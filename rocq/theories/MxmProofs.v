(** Proofs about the text of the manifest. *)
From Coq Require Import Ascii String.
From Verif Require Import Base Bytes JsonModel CtlModel CtlSpec CtlProofs MpdModel MpdSpec MpdProofs MxmModel MxmSpec.
Local Open Scope string_scope.
Local Open Scope list_scope.
Local Open Scope Z_scope.

(** *** The reader on printed text. *)
Lemma om_app (a b : list token) o : option_map (app a) (option_map (app b) o) = option_map (app (a ++ b)) o.
Proof. destruct o; cbn; [now rewrite app_assoc|reflexivity]. Qed.
Lemma om_nil (o : option (list token)) : option_map (app []) o = o.
Proof. now destruct o. Qed.
Lemma lex_step s c r s' : next s c = Some (s', []) -> lex s (c :: r) = lex s' r.
Proof. intros H; cbn [lex]; rewrite H; apply om_nil. Qed.
Lemma lex_emit s c r s' ts : next s c = Some (s', ts) -> lex s (c :: r) = option_map (app ts) (lex s' r).
Proof. intros H; cbn [lex]; now rewrite H. Qed.
Definition okName (n : str) : Prop := n <> [] /\ forallb nameChar n = true.
Lemma name_more n : forall m r, forallb nameChar n = true -> lex (Name m) (n ++ r) = lex (Name (m ++ n)) r.
Proof.
  induction n as [|c n IH]; intros m r H; [now rewrite app_nil_r|]; cbn in H; apply andb_prop in H as [H1 H2].
  cbn [app]; rewrite (lex_step _ _ _ (Name (m ++ [c]))) by (cbn [next]; now rewrite H1); rewrite IH by auto; now rewrite <- app_assoc.
Qed.
Lemma close_more n : forall m r, forallb nameChar n = true -> lex (Close m) (n ++ r) = lex (Close (m ++ n)) r.
Proof.
  induction n as [|c n IH]; intros m r H; [now rewrite app_nil_r|]; cbn in H; apply andb_prop in H as [H1 H2].
  cbn [app]; rewrite (lex_step _ _ _ (Close (m ++ [c]))) by (cbn [next]; now rewrite H1); rewrite IH by auto; now rewrite <- app_assoc.
Qed.
Lemma key_more n : forall m k a r, forallb nameChar n = true -> lex (Key m a k) (n ++ r) = lex (Key m a (k ++ n)) r.
Proof.
  induction n as [|c n IH]; intros m k a r H; [now rewrite app_nil_r|]; cbn in H; apply andb_prop in H as [H1 H2].
  cbn [app]; rewrite (lex_step _ _ _ (Key m a (k ++ [c]))) by (cbn [next]; now rewrite H1); rewrite IH by auto; now rewrite <- app_assoc.
Qed.
Lemma name_not_slash c : nameChar c = true -> is c "/" = false.
Proof. unfold is; intros H; destruct (Ascii.eqb_spec c "/"%char); auto; subst; discriminate. Qed.
Lemma open_name n r : okName n -> lex Lt (n ++ r) = lex (Name n) r.
Proof.
  intros [Hn H]; destruct n as [|c n]; [easy|]; cbn in H; apply andb_prop in H as [H1 H2].
  cbn [app]; rewrite (lex_step _ _ _ (Name [c])) by (cbn [next]; now rewrite name_not_slash, H1 by auto); now rewrite name_more.
Qed.
Lemma isT c d : is c d = true -> c = d.
Proof. unfold is; intros H; now apply Ascii.eqb_eq. Qed.
Lemma code_inj c d : code c = code d -> c = d.
Proof. unfold code; intros H; apply N2Z.inj in H; rewrite <- (ascii_N_embedding c), <- (ascii_N_embedding d); now rewrite H. Qed.
Ltac walk := cbn [lit list_ascii_of_string app]; repeat (erewrite lex_step; [|reflexivity]); reflexivity.
(** One character of a value. *)
Lemma val_char n a k v c r : 32 <= code c -> lex (Val n a k v) (entity true c ++ r) = lex (Val n a k (v ++ [c])) r.
Proof.
  intros Hc; unfold entity.
  destruct (is c "&") eqn:E1; [apply isT in E1; subst; walk|].
  destruct (is c "<") eqn:E2; [apply isT in E2; subst; walk|].
  destruct (is c ">") eqn:E3; [apply isT in E3; subst; walk|]; cbn [andb].
  destruct (is c """") eqn:E4; [apply isT in E4; subst; walk|].
  destruct (is c "'") eqn:E5; [apply isT in E5; subst; walk|].
  cbn [app]; apply lex_step; cbn [next]; rewrite E4, E1, E2.
  destruct (white c) eqn:W; [|reflexivity]. assert (c = " "%char) as ->; [|reflexivity].
  apply code_inj; change (code " ") with 32; unfold white in W; lia.
Qed.
Lemma val_more s : forall n a k v r, clean s -> lex (Val n a k v) (quoted true s ++ r) = lex (Val n a k (v ++ s)) r.
Proof.
  induction s as [|c s IH]; intros n a k v r H; [now rewrite app_nil_r|]; inversion H; subst.
  unfold quoted; cbn [flat_map]; rewrite <- app_assoc, val_char by auto; fold (quoted true s); rewrite IH by auto; now rewrite <- app_assoc.
Qed.
Lemma txt_char t c r : lex (Txt t) (entity false c ++ r) = lex (Txt (t ++ [c])) r.
Proof.
  unfold entity.
  destruct (is c "&") eqn:E1; [apply isT in E1; subst; walk|].
  destruct (is c "<") eqn:E2; [apply isT in E2; subst; walk|].
  destruct (is c ">") eqn:E3; [apply isT in E3; subst; walk|]; cbn [andb].
  cbn [app]; apply lex_step; cbn [next]; now rewrite E1, E2.
Qed.
Lemma txt_more s : forall t r, lex (Txt t) (quoted false s ++ r) = lex (Txt (t ++ s)) r.
Proof.
  induction s as [|c s IH]; intros t r; [now rewrite app_nil_r|].
  unfold quoted; cbn [flat_map]; rewrite <- app_assoc, txt_char; fold (quoted false s); rewrite IH; now rewrite <- app_assoc.
Qed.
Lemma white_more s : forall t r, forallb white s = true -> lex (Txt t) (s ++ r) = lex (Txt (t ++ s)) r.
Proof.
  induction s as [|c s IH]; intros t r H; [now rewrite app_nil_r|]; cbn in H; apply andb_prop in H as [H1 H2].
  cbn [app]; rewrite (lex_step _ _ _ (Txt (t ++ [c]))).
  - rewrite IH by auto; now rewrite <- app_assoc.
  - cbn [next]. destruct (is c "<") eqn:E1; [apply isT in E1; subst; discriminate|].
    destruct (is c "&") eqn:E2; [apply isT in E2; subst; discriminate|]; reflexivity.
Qed.
Lemma white_spaces n : forallb white (spaces n) = true.
Proof. unfold spaces; induction (4 * n)%nat; cbn; auto. Qed.

(** Attributes. *)
Definition okAttrs (a : attrs) : Prop := NoDup (map fst a) /\ Forall (fun x => okName (fst x) /\ clean (snd x)) a.
Lemma not_in_exists k (a : attrs) : ~ In k (map fst a) -> existsb (fun x => streqb k (fst x)) a = false.
Proof. induction a as [|[k' v] a IH]; cbn; intros H; auto. destruct (streqb_spec k k'); [subst; tauto|]; cbn; apply IH; tauto. Qed.
Lemma attr_text a : forall n b r, NoDup (map fst (b ++ a)) -> Forall (fun x => okName (fst x) /\ clean (snd x)) a ->
  lex (Tag n b) (attrText a ++ r) = lex (Tag n (b ++ a)) r.
Proof.
  induction a as [|[k v] a IH]; intros n b r ND H; [now rewrite app_nil_r|]; inversion H as [|? ? [[Hk Hk'] Hv] Ha]; subst; cbn [fst snd] in *.
  unfold attrText; cbn [flat_map fst snd]; fold (attrText a).
  rewrite <- !app_assoc; cbn [app]. rewrite (lex_step _ _ _ (Tag n b)) by reflexivity.
  destruct k as [|c k]; [easy|]; cbn in Hk'; apply andb_prop in Hk' as [H1 H2].
  rewrite <- !app_assoc; cbn [app]. rewrite (lex_step _ _ _ (Key n b [c])) by (cbn [next]; now rewrite H1).
  rewrite key_more by auto; cbn [app].
  assert (Hn : ~ In (c :: k) (map fst b)).
  { rewrite map_app in ND; apply NoDup_remove_2 in ND; intros C; apply ND, in_or_app; now left. }
  rewrite (lex_step _ _ _ (Eql n b (c :: k))) by (cbn [next]; change (nameChar "=") with false; change (is "=" "=") with true; cbv iota; now rewrite not_in_exists).
  rewrite (lex_step _ _ _ (Val n b (c :: k) [])) by reflexivity.
  rewrite <- app_assoc, val_more by auto; cbn [app].
  rewrite (lex_step _ _ _ (Tag n (b ++ [(c :: k, v)]))) by reflexivity.
  rewrite IH; [now rewrite <- app_assoc| now rewrite <- app_assoc |auto].
Qed.
(** After the name. *)
Lemma attrs_then a n c r : okAttrs a -> (c = ">"%char \/ c = "/"%char) -> lex (Name n) (attrText a ++ c :: r) = lex (Tag n a) (c :: r).
Proof.
  intros [ND H] Hc; destruct a as [|x a].
  - cbn [attrText flat_map app]; destruct Hc; subst; reflexivity.
  - assert (E : exists t, attrText (x :: a) ++ c :: r = " "%char :: t) by (unfold attrText; cbn [flat_map app]; eauto); destruct E as [t E].
    pose proof (attr_text (x :: a) n [] (c :: r) ND H) as Q; cbn [app] in Q; rewrite <- Q, E. now rewrite !(lex_step _ " "%char t (Tag n [])).
Qed.

(** *** Documents. *)
Fixpoint okXml (x : xml) : Prop :=
  match x with
  | El n a ks => okName n /\ okAttrs a /\ (fix all l := match l with [] => True | k :: r => okXml k /\ all r end) ks
  | Leaf n a _ => okName n /\ okAttrs a
  end.
Fixpoint treeOf (x : xml) : tree :=
  match x with El n a ks => Element n a (map treeOf ks) | Leaf n a t => Element n a (if forallb white t then [] else [Chars t]) end.
Fixpoint tokens (x : xml) : list token :=
  match x with
  | El n a ks => Open n a :: flat_map tokens ks ++ [Shut n]
  | Leaf n a t => Open n a :: (if forallb white t then [] else [Text t]) ++ [Shut n]
  end.
Section Ind.
Variable P : xml -> Prop.
Hypothesis HL : forall n a t, P (Leaf n a t).
Hypothesis HE : forall n a ks, Forall P ks -> P (El n a ks).
Fixpoint xml_ind' (x : xml) : P x :=
  match x with
  | Leaf n a t => HL n a t
  | El n a ks => HE n a ks ((fix go l := match l return Forall P l with [] => Forall_nil _ | k :: r => Forall_cons _ (xml_ind' k) (go r) end) ks)
  end.
End Ind.
Lemma okXml_El n a ks : okXml (El n a ks) <-> okName n /\ okAttrs a /\ Forall okXml ks.
Proof.
  cbn [okXml]; split; intros (H1 & H2 & H3); repeat (split; auto).
  - induction ks; constructor; tauto.
  - induction H3; auto.
Qed.
Lemma close_tag n r : okName n -> lex Lt ("/"%char :: n ++ ">"%char :: r) = option_map (app [Shut n]) (lex (Txt []) r).
Proof. intros [_ H]; rewrite (lex_step _ _ _ (Close [])) by reflexivity; rewrite close_more by auto; apply lex_emit; reflexivity. Qed.
Lemma open_tag n a t r : okName n -> okAttrs a -> forallb white t = true ->
  lex (Txt t) ("<"%char :: n ++ attrText a ++ ">"%char :: r) = option_map (app [Open n a]) (lex (Txt []) r).
Proof.
  intros Hn Ha Ht; rewrite (lex_step _ _ _ Lt) by (cbn [next]; change (is "<" "<") with true; cbv iota; now rewrite Ht).
  rewrite open_name, attrs_then by auto; apply lex_emit; reflexivity.
Qed.
Lemma lex_print x : forall d t r, okXml x -> forallb white t = true -> lex (Txt t) (print d x ++ r) = option_map (app (tokens x)) (lex (Txt []) r).
Proof.
  induction x as [n a s|n a ks IH] using xml_ind'; intros d t r H Ht.
  - destruct H as [Hn Ha]; cbn [print tokens].
    rewrite <- app_assoc, white_more by apply white_spaces; cbn [app]; rewrite <- !app_assoc; cbn [app].
    rewrite open_tag by (auto; rewrite forallb_app, Ht; apply white_spaces).
    rewrite <- app_assoc, txt_more; cbn [app]; rewrite (lex_emit _ _ _ Lt (if forallb white s then [] else [Text s])) by reflexivity.
    rewrite <- app_assoc; cbn [app]; rewrite close_tag by auto; rewrite !om_app; now destruct (lex (Txt []) r).
  - apply okXml_El in H as (Hn & Ha & Hk).
    destruct ks as [|k ks].
    + cbn [print tokens flat_map app].
      rewrite <- app_assoc, white_more by apply white_spaces; cbn [app]; rewrite <- !app_assoc; cbn [app].
      rewrite (lex_step _ _ _ Lt) by (cbn [next]; change (is "<" "<") with true; cbv iota; now rewrite forallb_app, Ht, white_spaces).
      rewrite open_name, attrs_then by auto; rewrite (lex_step _ _ _ (Slash n a)) by reflexivity; apply (lex_emit _ _ _ (Txt []) [Open n a; Shut n]); reflexivity.
    + set (l := k :: ks) in *. change (print d (El n a l)) with (spaces d ++ "<"%char :: n ++ attrText a ++ ">"%char :: flat_map (fun k => LF :: print (S d) k) l ++ LF :: spaces d ++ "<"%char :: "/"%char :: n ++ [">"%char]).
      clearbody l; clear k ks; cbn [tokens].
      rewrite <- app_assoc, white_more by apply white_spaces; cbn [app]; rewrite <- !app_assoc; cbn [app].
      rewrite open_tag by (auto; rewrite forallb_app, Ht; apply white_spaces).
      rewrite <- app_assoc; cbn [app].
      assert (E : forall q, lex (Txt []) (flat_map (fun k => LF :: print (S d) k) l ++ q) = option_map (app (flat_map tokens l)) (lex (Txt []) q)).
      { clear - IH Hk; induction l as [|k l IHl]; intros q; [now rewrite om_nil|].
        inversion IH; inversion Hk; subst; cbn [flat_map app]. rewrite (lex_step _ _ _ (Txt [LF])) by reflexivity.
        rewrite <- app_assoc. rewrite H1 by auto. rewrite IHl by auto. apply om_app. }
      rewrite E; rewrite (lex_step _ _ _ (Txt [LF])) by reflexivity.
      rewrite <- app_assoc, white_more by apply white_spaces; cbn [app].
      rewrite (lex_step _ _ _ Lt) by (cbn [next]; change (is "<" "<") with true; cbv iota; cbn [forallb]; now rewrite white_spaces).
      rewrite <- app_assoc; cbn [app]; rewrite close_tag by auto; rewrite !om_app; destruct (lex (Txt []) r); cbn [option_map app]; rewrite <- ?app_assoc; reflexivity.
Qed.
Lemma build_tokens x : forall m b c st r, build (tokens x ++ r) ((m, b, c) :: st) = build r ((m, b, c ++ [treeOf x]) :: st).
Proof.
  induction x as [n a s|n a ks IH] using xml_ind'; intros m b c st r; cbn [tokens treeOf].
  - cbn [app build]. destruct (forallb white s); cbn [app build]; now rewrite streqb_refl.
  - cbn [app build]; rewrite <- app_assoc; cbn [app].
    assert (E : forall c' q, build (flat_map tokens ks ++ q) ((n, a, c') :: (m, b, c) :: st) = build q ((n, a, c' ++ map treeOf ks) :: (m, b, c) :: st)).
    { clear - IH; induction ks as [|k ks IHl]; intros c' q; [now rewrite app_nil_r|]; inversion IH; subst; cbn [flat_map map app].
      rewrite <- app_assoc, H1, IHl by auto; now rewrite <- app_assoc. }
    rewrite E; cbn [app build]; now rewrite streqb_refl.
Qed.
Lemma read_document x : okXml x -> readXml (document x) = Some (treeOf x).
Proof.
  intros H; unfold readXml, document; rewrite lex_print by auto; change (lex (Txt []) [LF]) with (Some (@nil token)); cbn [option_map]; rewrite app_nil_r.
  destruct x as [n a ks|n a s]; cbn [tokens treeOf].
  - cbn [build].
    assert (E : forall c' q, build (flat_map tokens ks ++ q) [(n, a, c')] = build q [(n, a, c' ++ map treeOf ks)]).
    { clear; induction ks as [|k ks IHl]; intros c' q; [now rewrite app_nil_r|]; cbn [flat_map map].
      rewrite <- app_assoc, build_tokens, IHl; now rewrite <- app_assoc. }
    rewrite E; cbn [app build]; now rewrite streqb_refl.
  - cbn [build]. destruct (forallb white s); cbn [app build]; now rewrite streqb_refl.
Qed.

(** *** Numbers. *)
Lemma value_snoc s : forall acc c, value acc (s ++ [c]) = bindO (value acc s) (fun v => value v [c]).
Proof. induction s as [|x s IH]; intros acc c; [reflexivity|]; cbn [app value]; destruct (_ && _); [apply IH|reflexivity]. Qed.
Lemma code_digit d : 0 <= d <= 9 -> code (ascii_of_N (48 + Z.to_N d)) = 48 + d.
Proof. intros H; unfold code; rewrite N_ascii_embedding by lia; lia. Qed.
Lemma digits_read s z : digits s z -> value 0 s = Some z /\ clean s.
Proof.
  induction 1 as [|s z d D [V C] R]; [split; [reflexivity|constructor]|]; pose proof (code_digit d R) as E; split.
  - rewrite value_snoc, V; cbn [bindO value]; rewrite E; replace ((48 <=? 48 + d) && (48 + d <=? 57)) with true by lia; f_equal; lia.
  - apply Forall_app; split; auto; constructor; [|constructor]; lia.
Qed.
Definition u64 (z : Z) : Prop := 0 <= z < 18446744073709551616.
Lemma number_uint z : u64 z -> number (uintText z) = Some z /\ clean (uintText z).
Proof.
  unfold u64; intros H; unfold uintText; destruct (decimal_digits 20 z) as [D N]; [change (10 ^ Z.of_nat 20) with 100000000000000000000; lia|].
  destruct (digits_read _ _ D) as [V C]; split; auto; unfold number; specialize (N ltac:(discriminate)); destruct (decimal 20 z); [easy|exact V].
Qed.
Lemma intText_small z : small z -> intText z = uintText z.
Proof. unfold small, intText, uintText; intros H; now replace (z <? 0) with false by lia. Qed.
Lemma small_u64 z : small z -> u64 z.
Proof. unfold small, u64; lia. Qed.
Lemma number_int z : small z -> number (intText z) = Some z /\ clean (intText z).
Proof. intros H; rewrite intText_small by auto; apply number_uint, small_u64, H. Qed.
Lemma u32_small z : small z -> u32 z = z.
Proof. unfold small, u32; intros H; apply Z.mod_small; lia. Qed.
Lemma duration_pt z : u64 z -> duration (pt z) = Some z /\ clean (pt z).
Proof.
  intros H; destruct (number_uint z H) as [N C]; unfold pt; split.
  - unfold duration; set (d := uintText z) in *.
    change (lit "PT" ++ d ++ lit ".0S") with ("P"%char :: "T"%char :: d ++ lit ".0S").
    assert (L : length ("P"%char :: "T"%char :: d ++ lit ".0S") = (length d + 5)%nat) by (cbn [length]; rewrite app_length; cbn; lia).
    rewrite L; replace (length d + 5 - 3)%nat with (S (S (length d))) by lia; replace (length d + 5 - 5)%nat with (length d) by lia.
    cbn [firstn skipn]; rewrite skipn_app, skipn_all, Nat.sub_diag; cbn [app skipn].
    rewrite firstn_app, firstn_all, Nat.sub_diag; cbn [firstn]; rewrite app_nil_r.
    change (lit "PT") with ["P"%char; "T"%char]; now rewrite !streqb_refl.
  - apply Forall_app; split; [repeat constructor; vm_compute; discriminate|]; apply Forall_app; split; auto; repeat constructor; vm_compute; discriminate.
Qed.
Lemma uint_inj a b : u64 a -> u64 b -> uintText a = uintText b -> a = b.
Proof. apply dec_inj. Qed.

(** *** Maps by name. *)
Lemma sless_irrefl a : sless a a = false.
Proof. induction a as [|c a IH]; cbn; auto; now rewrite N.ltb_irrefl. Qed.
Lemma N_ascii_inj c d : N_of_ascii c = N_of_ascii d -> c = d.
Proof. intros H; rewrite <- (ascii_N_embedding c), <- (ascii_N_embedding d); now rewrite H. Qed.
Lemma sless_total a : forall b, a <> b -> sless a b = false -> sless b a = true.
Proof.
  induction a as [|c a IH]; intros [|d b] H E; cbn in *; try easy.
  destruct (N_of_ascii c <? N_of_ascii d)%N eqn:E1; [easy|]; destruct (N_of_ascii d <? N_of_ascii c)%N eqn:E2; [reflexivity|].
  assert (c = d) by (apply N_ascii_inj; lia); subst; apply IH; congruence.
Qed.
Lemma sless_trans a : forall b c, sless a b = true -> sless b c = true -> sless a c = true.
Proof.
  induction a as [|x a IH]; intros [|y b] [|z c] H1 H2; cbn in *; try easy.
  destruct (N_of_ascii x <? N_of_ascii y)%N eqn:E1, (N_of_ascii y <? N_of_ascii z)%N eqn:E2.
  - now replace (N_of_ascii x <? N_of_ascii z)%N with true by lia.
  - destruct (N_of_ascii z <? N_of_ascii y)%N eqn:E3; [easy|]; now replace (N_of_ascii x <? N_of_ascii z)%N with true by lia.
  - destruct (N_of_ascii y <? N_of_ascii x)%N eqn:E3; [easy|]; now replace (N_of_ascii x <? N_of_ascii z)%N with true by lia.
  - destruct (N_of_ascii y <? N_of_ascii x)%N eqn:E3; [easy|]; destruct (N_of_ascii z <? N_of_ascii y)%N eqn:E4; [easy|].
    replace (N_of_ascii x <? N_of_ascii z)%N with false by lia; replace (N_of_ascii z <? N_of_ascii x)%N with false by lia; eauto.
Qed.
Section Maps.
Context {X : Type}.
Implicit Types m : list (str * X).
Fixpoint ordered (m : list (str * X)) : Prop :=
  match m with [] => True | (k, _) :: t => Forall (fun y => sless k (fst y) = true) t /\ ordered t end.
Lemma rset_in k v m y : In y (rset k v m) -> y = (k, v) \/ In y m.
Proof.
  induction m as [|[k' v'] t IH]; cbn; [intuition|]. destruct (streqb k k'); [cbn; intuition|].
  destruct (sless k k'); cbn; intuition.
Qed.
Lemma rset_ordered k v m : ordered m -> ordered (rset k v m).
Proof.
  induction m as [|[k' v'] t IH]; cbn; [repeat constructor|]; intros [H1 H2].
  destruct (streqb_spec k k') as [->|N]; [cbn; auto|]; destruct (sless k k') eqn:E; cbn.
  - split; [|auto]; constructor; [exact E|]; rewrite Forall_forall in *; intros y Hy; eapply sless_trans; eauto.
  - split; [|auto]; rewrite Forall_forall in *; intros y Hy; apply rset_in in Hy as [-> |Hy]; [|auto]; cbn; now apply sless_total; [congruence|].
Qed.
Lemma rdel_ordered k m : ordered m -> ordered (rdel k m).
Proof.
  induction m as [|[k' v'] t IH]; cbn; auto; intros [H1 H2]; destruct (negb _); cbn; auto; split; auto.
  rewrite Forall_forall in *; intros y Hy; apply filter_In in Hy; apply H1; tauto.
Qed.
Lemma ordered_nodup m : ordered m -> NoDup (map fst m).
Proof.
  induction m as [|[k v] t IH]; cbn; intros H; constructor; [|apply IH; tauto]; destruct H as [H _]; rewrite Forall_forall in H.
  intros C; apply in_map_iff in C as [y [E Hy]]; specialize (H y Hy); rewrite E, sless_irrefl in H; discriminate.
Qed.
Lemma rfind_rset k v m k' : rfind k' (rset k v m) = if streqb k' k then Some v else rfind k' m.
Proof.
  induction m as [|[a b] t IH]; cbn; [reflexivity|].
  destruct (streqb_spec k a) as [->|N]; [cbn; destruct (streqb k' a); reflexivity|]; destruct (sless k a); cbn.
  - reflexivity.
  - rewrite IH; destruct (streqb_spec k' a) as [->|]; [destruct (streqb_spec a k); [congruence|reflexivity]|reflexivity].
Qed.
Lemma rfind_rdel k m k' : rfind k' (rdel k m) = if streqb k' k then None else rfind k' m.
Proof.
  unfold rdel; induction m as [|[a b] t IH]; cbn; [now destruct (streqb k' k)|]. destruct (streqb_spec k a) as [->|N]; cbn.
  - rewrite IH; destruct (streqb k' a); reflexivity.
  - rewrite IH; destruct (streqb_spec k' a) as [->|]; [destruct (streqb_spec a k); [congruence|reflexivity]|reflexivity].
Qed.
Lemma rfind_in k v m : NoDup (map fst m) -> In (k, v) m <-> rfind k m = Some v.
Proof.
  induction m as [|[a b] t IH]; cbn; intros N; [easy|]; inversion N; subst. destruct (streqb_spec k a) as [->|Na].
  - split; [intros [E|E]; [congruence|]|intros E; left; congruence]. exfalso; apply H1, in_map_iff; exists (a, v); auto.
  - rewrite <- IH by auto; intuition congruence.
Qed.
End Maps.

(** *** The manager's states. *)
Definition keyOf (k : str) : Prop := exists i, small i /\ k = uintText i.
Definition okTimes (l : list (Z * Z)) : Prop := Forall (fun x => u64 (fst x) /\ u64 (snd x)) l.
Definition okVR (x : str * vrepr) : Prop := keyOf (fst x) /\ clean (vrCodec (snd x)) /\ small (vrW (snd x)) /\ small (vrH (snd x)) /\ small (vrBw (snd x)).
Definition okAR (x : str * arepr) : Prop := keyOf (fst x) /\ clean (arCodec (snd x)) /\ small (arRate (snd x)) /\ small (arBw (snd x)) /\ small (arCh (snd x)).
Definition okVA (x : vadapt) : Prop := small (vaScale x) /\ clean (vaSeg x) /\ clean (vaInit x) /\ okTimes (vaTimes x) /\ small (vaMaxW x) /\ small (vaMaxH x) /\ vaRate x = 0 /\
  Forall okVR (vaReprs x) /\ ordered (vaReprs x).
Definition okAA (x : aadapt) : Prop := small (aaScale x) /\ clean (aaSeg x) /\ clean (aaInit x) /\ okTimes (aaTimes x) /\ Forall okAR (aaReprs x) /\ ordered (aaReprs x).
Definition optP {X} (P : X -> Prop) (o : option X) : Prop := match o with Some x => P x | None => True end.
Definition okM (m : mpd) : Prop := optP clean (mStart m) /\ optP okVA (mVid m) /\ optP okAA (mAud m).
Lemma clean_app a b : clean a -> clean b -> clean (a ++ b).
Proof. intros; apply Forall_app; auto. Qed.
Definition cleanb (s : str) : bool := forallb (fun c => 32 <=? code c) s.
Lemma cleanb_ok s : cleanb s = true -> clean s.
Proof. unfold cleanb, clean; rewrite forallb_forall, Forall_forall; intros H c Hc; apply H in Hc; lia. Qed.
Lemma clean_templ s b : clean b -> clean (segTempl s b) /\ clean (initTempl s b).
Proof. intros H; split; apply clean_app; auto; apply cleanb_ok; destruct s; reflexivity. Qed.
Lemma popFront_incl n l : forall r x, In x (snd (popFront n l r)) -> In x l.
Proof. induction l as [|y l IH]; intros r x; cbn [popFront]; [auto|]; destruct (n <=? _); [intros H; right; eauto|auto]. Qed.
Lemma push_ok n l t d : okTimes l -> u64 t -> u64 d -> okTimes (snd (popFront n l 0) ++ [(t, d)]).
Proof.
  intros H Ht Hd; apply Forall_app; split; [|constructor; [split; auto|constructor]]; unfold okTimes in *; rewrite Forall_forall in *; intros x Hx; eauto using popFront_incl.
Qed.
Lemma rset_all {X} (P : str * X -> Prop) k v m : P (k, v) -> Forall P m -> Forall P (rset k v m).
Proof. intros H1 H2; rewrite Forall_forall in *; intros y Hy; apply rset_in in Hy as [->|Hy]; auto. Qed.
Lemma rdel_all {X} (P : str * X -> Prop) k m : Forall P m -> Forall P (rdel k m).
Proof. intros H2; rewrite Forall_forall in *; intros y Hy; apply filter_In in Hy; apply H2; tauto. Qed.
Lemma key_of i : small i -> keyOf (uintText (u32 i)).
Proof. intros H; exists i; now rewrite u32_small. Qed.
Lemma okM_step o m : proper o -> okM m -> okM (step o m).
Proof.
  intros P (H1 & H2 & H3); destruct o; cbn [step].
  - repeat split; auto.
  - destruct P as (Pk & Pb & Pi & Pc & Pw & Ph & Pbw); destruct (clean_templ V base Pb) as [T1 T2].
    unfold updateVideoRepr, updateVideoSet, okM; cbn [mVid mStart mAud optP]; split; [exact H1|]; split; [|exact H3].
    assert (okVA (match mVid m with Some x => x | None => mkVA scale (segTempl V base) (initTempl V base) [] 0 0 0 [] end)) as (Q1 & Q2 & Q3 & Q4 & Q5 & Q6 & Q7 & Q8 & Q9).
    { destruct (mVid m); [exact H2|]; repeat split; auto; try (unfold small; cbn; lia); try constructor; apply Pk. }
    unfold okVA; cbn [vaScale vaSeg vaInit vaTimes vaMaxW vaMaxH vaRate vaReprs].
    repeat match goal with |- _ /\ _ => split end; auto; try (destruct (_ <? _); assumption).
    + apply rset_all; auto; unfold okVR; cbn [fst snd vrCodec vrW vrH vrBw]; auto 10 using key_of.
    + now apply rset_ordered.
  - destruct P as (Pk & Pb & Pi & Pc & Pw & Ph & Pbw); destruct (clean_templ A base Pb) as [T1 T2].
    unfold updateAudioRepr, updateAudioSet, okM; cbn [mVid mStart mAud optP]; split; [exact H1|]; split; [exact H2|].
    assert (okAA (match mAud m with Some x => x | None => mkAA scale (segTempl A base) (initTempl A base) [] [] end)) as (Q1 & Q2 & Q3 & Q4 & Q5 & Q6).
    { destruct (mAud m); [exact H3|]; repeat split; auto; try constructor; apply Pk. }
    unfold okAA; cbn [aaScale aaSeg aaInit aaTimes aaReprs].
    repeat match goal with |- _ /\ _ => split end; auto.
    + apply rset_all; auto; unfold okAR; cbn [fst snd arCodec arRate arBw arCh]; auto 10 using key_of.
    + now apply rset_ordered.
  - destruct P as [Pt Pd]. assert (u64 dur) by (unfold u64; lia).
    destruct s; unfold stamp, okM; cbn [mVid mStart mAud]; (split; [exact H1|]); split; try assumption.
    + destruct (mVid m) as [x|]; cbn [option_map optP] in *; auto; destruct H2 as (Q1 & Q2 & Q3 & Q4 & Q5 & Q6 & Q7 & Q8 & Q9).
      unfold okVA; cbn [vaScale vaSeg vaInit vaTimes vaMaxW vaMaxH vaRate vaReprs]; repeat match goal with |- _ /\ _ => split end; auto using push_ok.
    + destruct (mAud m) as [x|]; cbn [option_map optP] in *; auto; destruct H3 as (Q1 & Q2 & Q3 & Q4 & Q5 & Q6).
      unfold okAA; cbn [aaScale aaSeg aaInit aaTimes aaReprs]; repeat match goal with |- _ /\ _ => split end; auto using push_ok.
  - destruct s; unfold removeRepr, okM; cbn [mVid mStart mAud]; (split; [exact H1|]); split; try assumption.
    + destruct (mVid m) as [x|]; cbn [option_map optP] in *; auto; destruct H2 as (Q1 & Q2 & Q3 & Q4 & Q5 & Q6 & Q7 & Q8 & Q9).
      unfold okVA; cbn [vaScale vaSeg vaInit vaTimes vaMaxW vaMaxH vaRate vaReprs]; repeat match goal with |- _ /\ _ => split end; auto using rdel_all, rdel_ordered.
    + destruct (mAud m) as [x|]; cbn [option_map optP] in *; auto; destruct H3 as (Q1 & Q2 & Q3 & Q4 & Q5 & Q6).
      unfold okAA; cbn [aaScale aaSeg aaInit aaTimes aaReprs]; repeat match goal with |- _ /\ _ => split end; auto using rdel_all, rdel_ordered.
  - unfold writeToDisk, okM; cbn [snd mStart mVid mAud optP]; split; [|auto]; destruct (mStart m); auto.
Qed.
Lemma okM_run l : forall m, Forall proper l -> okM m -> okM (run l m).
Proof. induction l as [|o l IH]; intros m P H; [exact H|]; inversion P; subst; apply (IH (step o m)); auto using okM_step. Qed.
Lemma okM_new : okM newMpd.
Proof. repeat split. Qed.

(** *** The document is well formed. *)
Fixpoint nodupb (l : list str) : bool := match l with [] => true | k :: r => negb (existsb (streqb k) r) && nodupb r end.
Lemma nodupb_ok l : nodupb l = true -> NoDup l.
Proof.
  induction l as [|k l IH]; cbn; intros H; constructor; apply andb_prop in H as [H1 H2]; auto.
  intros C; apply negb_true_iff in H1; assert (existsb (streqb k) l = true) by (apply existsb_exists; exists k; split; [auto|apply streqb_refl]); congruence.
Qed.
Definition okNameb (n : str) : bool := match n with [] => false | _ => forallb nameChar n end.
Lemma okNameb_ok n : okNameb n = true -> okName n.
Proof. destruct n; [discriminate|]; intros H; split; [discriminate|exact H]. Qed.
Lemma okAttrs_of a : nodupb (map fst a) = true -> forallb okNameb (map fst a) = true -> Forall (fun x => clean (snd x)) a -> okAttrs a.
Proof.
  intros H1 H2 H3; split; [now apply nodupb_ok|]; rewrite Forall_forall in *; rewrite forallb_forall in H2; intros x Hx; split; auto; apply okNameb_ok, H2, in_map, Hx.
Qed.
Lemma setAttr_clean k v a : clean v -> Forall (fun x : str * str => clean (snd x)) a -> Forall (fun x : str * str => clean (snd x)) (setAttr k v a).
Proof. intros Hv H; induction H as [|[k' v'] t H1 H2 IH]; cbn; [repeat constructor; auto|]; destruct (streqb k k'); constructor; auto. Qed.
Lemma sets_clean l : Forall (fun x : string * str => clean (snd x)) l -> Forall (fun x : str * str => clean (snd x)) (sets l).
Proof.
  unfold sets; intros H; assert (G : forall a, Forall (fun x : str * str => clean (snd x)) a -> Forall (fun x : str * str => clean (snd x)) (fold_left (fun a (x : string * str) => setAttr (lit (fst x)) (snd x) a) l a)).
  { induction H as [|x l H1 H2 IH]; intros a Ha; cbn [fold_left]; auto; apply IH, setAttr_clean; auto. }
  apply G; constructor.
Qed.
Lemma fcons k v l : clean v -> Forall (fun x : string * str => clean (snd x)) l -> Forall (fun x : string * str => clean (snd x)) ((k, v) :: l).
Proof. now constructor. Qed.
Lemma fnil : Forall (fun x : string * str => clean (snd x)) [].
Proof. constructor. Qed.
Ltac fields := apply okAttrs_of; [reflexivity|reflexivity|apply sets_clean; unfold alignment; cbn [app]; repeat apply fcons; try apply fnil].
Ltac literal := apply cleanb_ok; reflexivity.
Lemma ok_S x : u64 (fst x) /\ u64 (snd x) -> okXml (sElement x).
Proof.
  intros [H1 H2]; apply okXml_El; split; [apply okNameb_ok; reflexivity|]; split; [|constructor].
  fields; now apply number_uint.
Qed.
Lemma ok_template k s i l : small k -> clean s -> clean i -> okTimes l -> okXml (template k s i l).
Proof.
  intros H1 H2 H3 H4; apply okXml_El; split; [apply okNameb_ok; reflexivity|]; split.
  - fields; auto; now apply number_int.
  - constructor; [|constructor]; apply okXml_El; split; [apply okNameb_ok; reflexivity|]; split; [split; constructor|].
    unfold okTimes in H4; rewrite Forall_forall in *; intros y Hy; apply in_map_iff in Hy as [x [<- Hx]]; now apply ok_S, H4.
Qed.
Lemma key_clean k : keyOf k -> clean k.
Proof. intros [i [H ->]]; now apply number_uint, small_u64. Qed.
Lemma ok_videoRepr x : okVR x -> okXml (videoRepr x).
Proof.
  intros (H1 & H2 & H3 & H4 & H5); apply okXml_El; split; [apply okNameb_ok; reflexivity|]; split; [|constructor].
  fields; auto using key_clean; try (now apply number_int); literal.
Qed.
Lemma ok_audioRepr x : okAR x -> okXml (audioRepr x).
Proof.
  intros (H1 & H2 & H3 & H4 & H5); apply okXml_El; split; [apply okNameb_ok; reflexivity|]; split.
  - fields; auto using key_clean; now apply number_int.
  - constructor; [|constructor]; apply okXml_El; split; [apply okNameb_ok; reflexivity|]; split; [|constructor].
    fields; [literal|now apply number_int].
Qed.
Lemma zero_small : small 0.
Proof. unfold small; lia. Qed.
Lemma ok_videoSet x : okVA x -> okXml (videoSet x).
Proof.
  intros (Q1 & Q2 & Q3 & Q4 & Q5 & Q6 & Q7 & Q8 & Q9); apply okXml_El; split; [apply okNameb_ok; reflexivity|]; split.
  - fields; try (now apply number_int); try literal. rewrite Q7; apply number_int, zero_small.
  - constructor; [now apply ok_template|]; rewrite Forall_forall in *; intros y Hy; apply in_map_iff in Hy as [z [<- Hz]]; now apply ok_videoRepr, Q8.
Qed.
Lemma ok_audioSet x : okAA x -> okXml (audioSet x).
Proof.
  intros (Q1 & Q2 & Q3 & Q4 & Q5 & Q6); apply okXml_El; split; [apply okNameb_ok; reflexivity|]; split.
  - fields; literal.
  - constructor; [apply okXml_El; split; [apply okNameb_ok; reflexivity|]; split; [fields; literal|constructor]|].
    constructor; [now apply ok_template|]; rewrite Forall_forall in *; intros y Hy; apply in_map_iff in Hy as [z [<- Hz]]; now apply ok_audioRepr, Q5.
Qed.
Lemma ok_mpd start m : okM m -> clean start -> clean (mPeriod m) -> clean (mDepth m) -> clean (pt (mBuf m)) -> okXml (mpdTree start m).
Proof.
  intros (H1 & H2 & H3) Hs Hp Hd Hb; apply okXml_El; split; [apply okNameb_ok; reflexivity|]; split.
  - fields; auto; literal.
  - constructor; [|constructor; [|constructor]].
    + apply okXml_El; split; [apply okNameb_ok; reflexivity|]; split; [split; constructor|]; constructor; [|constructor].
      split; [apply okNameb_ok; reflexivity|split; constructor].
    + apply okXml_El; split; [apply okNameb_ok; reflexivity|]; split; [fields; literal|].
      apply Forall_app; split; [destruct (mVid m)|destruct (mAud m)]; cbn [optList optP] in *; try apply Forall_nil; (apply Forall_cons; [auto using ok_videoSet, ok_audioSet|apply Forall_nil]).
Qed.

(** *** What is read. *)
Lemma all_map {X Y Z0} (f : Y -> option Z0) (g : X -> Y) (h : X -> Z0) l : Forall (fun x => f (g x) = Some (h x)) l -> all f (map g l) = Some (map h l).
Proof. induction 1 as [|x l H1 H2 IH]; cbn; auto; now rewrite H1, IH. Qed.
Lemma filter_map_true {X Y} (p : Y -> bool) (g : X -> Y) l : (forall x, p (g x) = true) -> filter p (map g l) = map g l.
Proof. intros H; induction l as [|x l IH]; cbn; auto; now rewrite H, IH. Qed.
Lemma read_S x : u64 (fst x) /\ u64 (snd x) -> readS (treeOf (sElement x)) = Some x.
Proof.
  intros [H1 H2]; unfold readS, num.
  change (attr "t" (treeOf (sElement x))) with (Some (uintText (fst x))); change (attr "d" (treeOf (sElement x))) with (Some (uintText (snd x))); cbn [bindO].
  rewrite (proj1 (number_uint _ H1)), (proj1 (number_uint _ H2)); cbn; now destruct x.
Qed.
Lemma read_template k s i l : small k -> okTimes l -> forall set, must "segmentAlignment" "true" set = Some set -> must "startWithSAP" "1" set = Some set -> kid "SegmentTemplate" set = Some (treeOf (template k s i l)) -> readSegments set = Some (mkSegs k s i l).
Proof.
  intros Hk Hl set M1 M2 E; unfold readSegments, num; rewrite M1, M2, E; cbn [bindO].
  set (t := treeOf (template k s i l)); change (attr "timescale" t) with (Some (intText k)); change (attr "media" t) with (Some s); change (attr "initialization" t) with (Some i).
  change (kid "SegmentTimeline" t) with (Some (treeOf (El (lit "SegmentTimeline") [] (map sElement l)))); cbn [bindO].
  rewrite (proj1 (number_int _ Hk)); cbn [bindO].
  change (kids "S" (treeOf (El (lit "SegmentTimeline") [] (map sElement l)))) with (filter (named "S") (map treeOf (map sElement l))).
  rewrite map_map, filter_map_true by reflexivity.
  rewrite (all_map _ _ (fun x => x)), map_id; [reflexivity|]; unfold okTimes in Hl; rewrite Forall_forall in *; intros x Hx; now apply read_S, Hl.
Qed.
Definition numOf (k : str) : Z := match number k with Some z => z | None => 0 end.
Lemma key_number k : keyOf k -> number k = Some (numOf k) /\ small (numOf k) /\ uintText (numOf k) = k.
Proof. intros [i [H ->]]; unfold numOf; rewrite (proj1 (number_uint _ (small_u64 _ H))); auto. Qed.
Definition vOf (r : vrepr) : vstream := mkVS (vrCodec r) (vrW r) (vrH r) (vrBw r).
Definition aOf (r : arepr) : astream := mkAS (arCodec r) (arRate r) (arBw r) (arCh r).
Lemma read_videoRepr x : okVR x -> readVideoStream (treeOf (videoRepr x)) = Some (numOf (fst x), vOf (snd x)).
Proof.
  intros (H1 & H2 & H3 & H4 & H5); unfold readVideoStream, num; set (t := treeOf (videoRepr x)).
  change (attr "id" t) with (Some (fst x)); change (attr "codecs" t) with (Some (vrCodec (snd x))); change (attr "width" t) with (Some (intText (vrW (snd x))));
    change (attr "height" t) with (Some (intText (vrH (snd x)))); change (attr "bandwidth" t) with (Some (intText (vrBw (snd x)))); cbn [bindO].
  rewrite (proj1 (key_number _ H1)), (proj1 (number_int _ H3)), (proj1 (number_int _ H4)), (proj1 (number_int _ H5)); reflexivity.
Qed.
Lemma read_audioRepr x : okAR x -> readAudioStream (treeOf (audioRepr x)) = Some (numOf (fst x), aOf (snd x)).
Proof.
  intros (H1 & H2 & H3 & H4 & H5); unfold readAudioStream, num; set (t := treeOf (audioRepr x)).
  change (attr "id" t) with (Some (fst x)); change (attr "codecs" t) with (Some (arCodec (snd x))); change (attr "audioSamplingRate" t) with (Some (intText (arRate (snd x))));
    change (attr "bandwidth" t) with (Some (intText (arBw (snd x)))).
  change (kid "AudioChannelConfiguration" t) with (Some (treeOf (El (lit "AudioChannelConfiguration") (sets [("schemeIdUri", lit "urn:mpeg:dash:23003:3:audio_channel_configuration:2011"); ("value", intText (arCh (snd x)))]) []))).
  cbn [bindO]. rewrite (proj1 (key_number _ H1)), (proj1 (number_int _ H3)), (proj1 (number_int _ H4)); cbn [bindO].
  match goal with |- context[attr "value" ?u] => change (attr "value" u) with (Some (intText (arCh (snd x)))) end; cbn [bindO].
  rewrite (proj1 (number_int _ H5)); reflexivity.
Qed.
Lemma filter_map_false {X Y} (p : Y -> bool) (g : X -> Y) l : (forall x, p (g x) = false) -> filter p (map g l) = [].
Proof. intros H; induction l as [|x l IH]; cbn; auto; now rewrite H. Qed.
Definition videosOf (x : vadapt) : videos :=
  mkVs (mkSegs (vaScale x) (vaSeg x) (vaInit x) (vaTimes x)) (vaMaxW x) (vaMaxH x) (vaRate x) (map (fun r => (numOf (fst r), vOf (snd r))) (vaReprs x)).
Definition audiosOf (x : aadapt) : audios :=
  mkAs (mkSegs (aaScale x) (aaSeg x) (aaInit x) (aaTimes x)) (map (fun r => (numOf (fst r), aOf (snd r))) (aaReprs x)).
Lemma read_videoSet x : okVA x -> readVideos (treeOf (videoSet x)) = Some (videosOf x).
Proof.
  intros (Q1 & Q2 & Q3 & Q4 & Q5 & Q6 & Q7 & Q8 & Q9); unfold readVideos.
  rewrite (read_template (vaScale x) (vaSeg x) (vaInit x) (vaTimes x)); auto.
  - unfold num; set (t := treeOf (videoSet x)).
    change (attr "maxWidth" t) with (Some (intText (vaMaxW x))); change (attr "maxHeight" t) with (Some (intText (vaMaxH x))); change (attr "frameRate" t) with (Some (intText (vaRate x))).
    change (kids "Representation" t) with (filter (named "Representation") (map treeOf (map videoRepr (vaReprs x)))); cbn [bindO].
    rewrite map_map, filter_map_true by reflexivity. rewrite (all_map _ _ (fun r => (numOf (fst r), vOf (snd r)))).
    + rewrite (proj1 (number_int _ Q5)), (proj1 (number_int _ Q6)); rewrite (proj1 (number_int (vaRate x) ltac:(rewrite Q7; apply zero_small))); reflexivity.
    + rewrite Forall_forall in *; intros r Hr; now apply read_videoRepr, Q8.
  - change (kid "SegmentTemplate" (treeOf (videoSet x))) with (only (treeOf (template (vaScale x) (vaSeg x) (vaInit x) (vaTimes x)) :: filter (named "SegmentTemplate") (map treeOf (map videoRepr (vaReprs x))))).
    rewrite map_map, filter_map_false by reflexivity; reflexivity.
Qed.
Lemma read_audioSet x : okAA x -> readAudios (treeOf (audioSet x)) = Some (audiosOf x).
Proof.
  intros (Q1 & Q2 & Q3 & Q4 & Q5 & Q6); unfold readAudios.
  rewrite (read_template (aaScale x) (aaSeg x) (aaInit x) (aaTimes x)); auto.
  - set (t := treeOf (audioSet x)); change (kids "Representation" t) with (filter (named "Representation") (map treeOf (map audioRepr (aaReprs x)))); cbn [bindO].
    rewrite map_map, filter_map_true by reflexivity. rewrite (all_map _ _ (fun r => (numOf (fst r), aOf (snd r)))); [reflexivity|].
    rewrite Forall_forall in *; intros r Hr; now apply read_audioRepr, Q5.
  - change (kid "SegmentTemplate" (treeOf (audioSet x))) with (only (treeOf (template (aaScale x) (aaSeg x) (aaInit x) (aaTimes x)) :: filter (named "SegmentTemplate") (map treeOf (map audioRepr (aaReprs x))))).
    rewrite map_map, filter_map_false by reflexivity; reflexivity.
Qed.
Lemma read_manifest start m u d : okM m -> clean start -> mPeriod m = pt u -> mDepth m = pt d -> u64 u -> u64 d -> u64 (mBuf m) ->
  readManifest (document (mpdTree start m)) = Some (mkM u d (mBuf m) start (option_map videosOf (mVid m)) (option_map audiosOf (mAud m))).
Proof.
  intros H Hs Eu Ed Hu Hd Hb; destruct (duration_pt _ Hu) as [Ru Cu], (duration_pt _ Hd) as [Rd Cd], (duration_pt _ Hb) as [Rb Cb].
  unfold readManifest; rewrite read_document by (apply ok_mpd; auto; congruence); cbn [bindO].
  set (t := treeOf (mpdTree start m)); change (named "MPD" t) with true; change (must "xmlns" "urn:mpeg:dash:schema:mpd:2011" t) with (Some t);
    change (must "profiles" "urn:mpeg:dash:profile:isoff-live:2011" t) with (Some t); change (must "type" "dynamic" t) with (Some t); cbn [bindO]; unfold sec.
  change (attr "minimumUpdatePeriod" t) with (Some (mPeriod m)); change (attr "timeShiftBufferDepth" t) with (Some (mDepth m)); change (attr "minBufferTime" t) with (Some (pt (mBuf m)));
    change (attr "availabilityStartTime" t) with (Some start).
  change (kid "Period" t) with (Some (treeOf (El (lit "Period") (sets [("id", lit "0"); ("start", lit "PT0.0S")]) (optList videoSet (mVid m) ++ optList audioSet (mAud m))))).
  cbn [bindO]; rewrite Eu, Ed, Ru, Rd, Rb; cbn [bindO].
  match goal with |- context[attr "start" ?p] => change (attr "start" p) with (Some (lit "PT0.0S")); change (duration (lit "PT0.0S")) with (Some 0) end; cbn [bindO]; change (0 =? 0) with true; cbn [bindO].
  destruct H as (_ & Hv & Ha).
  match goal with |- context[kids "AdaptationSet" ?p] => assert (E : kids "AdaptationSet" p = map treeOf (optList videoSet (mVid m)) ++ map treeOf (optList audioSet (mAud m))) end.
  { destruct (mVid m), (mAud m); reflexivity. }
  rewrite E; clear E t.
  assert (E1 : setOfType "video/mp4" (map treeOf (optList videoSet (mVid m)) ++ map treeOf (optList audioSet (mAud m))) = map treeOf (optList videoSet (mVid m))) by (destruct (mVid m), (mAud m); reflexivity).
  assert (E2 : setOfType "audio/mp4" (map treeOf (optList videoSet (mVid m)) ++ map treeOf (optList audioSet (mAud m))) = map treeOf (optList audioSet (mAud m))) by (destruct (mVid m), (mAud m); reflexivity).
  rewrite E1, E2; clear E1 E2.
  assert (E1 : atMost readVideos (map treeOf (optList videoSet (mVid m))) = Some (option_map videosOf (mVid m))).
  { destruct (mVid m); [|reflexivity]; cbn [optList map atMost option_map]; now rewrite read_videoSet. }
  assert (E2 : atMost readAudios (map treeOf (optList audioSet (mAud m))) = Some (option_map audiosOf (mAud m))).
  { destruct (mAud m); [|reflexivity]; cbn [optList map atMost option_map]; now rewrite read_audioSet. }
  rewrite E1, E2; reflexivity.
Qed.

(** *** Histories. *)
Lemma run_cons o l m : run (o :: l) m = run l (step o m).
Proof. reflexivity. Qed.
Lemma start_run l : forall m now, match mStart (run l m) with Some s => s | None => now end = match mStart m with Some s => s | None => firstWritten l now end.
Proof.
  induction l as [|o l IH]; intros m now; [reflexivity|]; rewrite run_cons, IH; destruct o; cbn [step firstWritten]; try reflexivity.
  - destruct s; reflexivity.
  - destruct s; reflexivity.
Qed.
Definition cfg (m : mpd) (c : Z * Z * Z) : Prop :=
  let '(b, n, d) := c in mSeg m = Z.max 2 n /\ mPeriod m = pt d /\ mDepth m = pt (Z.max 2 n * d) /\ mBuf m = Z.min (Z.max 2 n * d) (Z.max b (2 * d)) /\
    0 <= b < 4294967296 /\ 0 < d /\ Z.max 2 n * d < 4294967296.
Lemma cfg_new b n d m : proper (Configure b n d) -> cfg (step (Configure b n d) m) (b, n, d).
Proof.
  intros (H1 & H2 & H3 & H4); cbn [step]; unfold mConfigure, cfg; cbn [mSeg mPeriod mDepth mBuf].
  assert (E : (if 2 <=? n then n else 2) = Z.max 2 n) by (destruct (2 <=? n) eqn:?; lia); rewrite E.
  assert (2 * d <= Z.max 2 n * d) by (apply Z.mul_le_mono_nonneg_r; lia).
  assert (E1 : u32 (Z.max 2 n * d) = Z.max 2 n * d) by (apply Z.mod_small; lia).
  assert (E2 : u32 (2 * d) = 2 * d) by (apply Z.mod_small; lia).
  rewrite E1, E2; repeat (split; [try reflexivity; try lia|]); try lia; destruct (_ <=? b) eqn:L1; try lia; destruct (2 * d <=? b) eqn:L2; lia.
Qed.
Lemma cfg_step o m c : proper o -> cfg m c -> cfg (step o m) (configured [o] c).
Proof.
  intros P H; destruct o; cbn [configured]; try exact H.
  - now apply cfg_new.
  - destruct s; exact H.
  - destruct s; exact H.
Qed.
Lemma configured_cons o l c : configured (o :: l) c = configured l (configured [o] c).
Proof. destruct o; reflexivity. Qed.
Lemma cfg_run l : forall m c, Forall proper l -> cfg m c -> cfg (run l m) (configured l c).
Proof.
  induction l as [|o l IH]; intros m c P H; [exact H|]; inversion P; subst; rewrite run_cons, configured_cons; apply IH; auto using cfg_step.
Qed.

(** Streams. *)
Definition vLook (m : mpd) (i : Z) : option vstream := match mVid m with Some x => option_map vOf (rfind (uintText i) (vaReprs x)) | None => None end.
Definition aLook (m : mpd) (i : Z) : option astream := match mAud m with Some x => option_map aOf (rfind (uintText i) (aaReprs x)) | None => None end.
Lemma key_eqb i j : small i -> small j -> streqb (uintText i) (uintText j) = (i =? j).
Proof. intros Hi Hj; destruct (streqb_spec (uintText i) (uintText j)) as [E|E]; destruct (Z.eqb_spec i j); auto; [apply uint_inj in E; auto using small_u64; lia|congruence]. Qed.
Lemma vLook_step o m i : proper o -> small i -> vLook (step o m) i = match o with
    | Video _ _ j c w h b => if i =? j then Some (mkVS c w h b) else vLook m i
    | Remove V j => if i =? j then None else vLook m i
    | _ => vLook m i end.
Proof.
  intros P Hi; destruct o; cbn [step]; try reflexivity.
  - destruct P as (_ & _ & Pi & _); unfold updateVideoRepr, updateVideoSet, vLook; cbn [mVid vaReprs]; rewrite rfind_rset, u32_small, key_eqb by auto.
    destruct (i =? id); [reflexivity|]; destruct (mVid m); reflexivity.
  - destruct s; [|reflexivity]; unfold stamp, vLook; cbn [mVid]; destruct (mVid m); reflexivity.
  - destruct s; [|reflexivity]; cbn in P; unfold removeRepr, vLook; cbn [mVid]; destruct (mVid m); cbn [option_map vaReprs]; [|now destruct (i =? id)].
    rewrite rfind_rdel, intText_small, key_eqb by auto; now destruct (i =? id).
Qed.
Lemma aLook_step o m i : proper o -> small i -> aLook (step o m) i = match o with
    | Audio _ _ j c r b n => if i =? j then Some (mkAS c r b n) else aLook m i
    | Remove A j => if i =? j then None else aLook m i
    | _ => aLook m i end.
Proof.
  intros P Hi; destruct o; cbn [step]; try reflexivity.
  - destruct P as (_ & _ & Pi & _); unfold updateAudioRepr, updateAudioSet, aLook; cbn [mAud aaReprs]; rewrite rfind_rset, u32_small, key_eqb by auto.
    destruct (i =? id); [reflexivity|]; destruct (mAud m); reflexivity.
  - destruct s; [reflexivity|]; unfold stamp, aLook; cbn [mAud]; destruct (mAud m); reflexivity.
  - destruct s; [reflexivity|]; cbn in P; unfold removeRepr, aLook; cbn [mAud]; destruct (mAud m); cbn [option_map aaReprs]; [|now destruct (i =? id)].
    rewrite rfind_rdel, intText_small, key_eqb by auto; now destruct (i =? id).
Qed.
Lemma vLook_run l i : Forall proper l -> small i -> vLook (run l newMpd) i = videoNow l i.
Proof.
  intros P Hi; assert (G : forall m, vLook (run l m) i = fold_left (fun f o => match o with | Video _ _ j c w h b => if i =? j then Some (mkVS c w h b) else f | Remove V j => if i =? j then None else f | _ => f end) l (vLook m i)); [|apply G].
  induction P as [|o l Po Pl IH]; intros m; [reflexivity|]; rewrite run_cons, IH; cbn [fold_left]; now rewrite vLook_step.
Qed.
Lemma aLook_run l i : Forall proper l -> small i -> aLook (run l newMpd) i = audioNow l i.
Proof.
  intros P Hi; assert (G : forall m, aLook (run l m) i = fold_left (fun f o => match o with | Audio _ _ j c r b n => if i =? j then Some (mkAS c r b n) else f | Remove A j => if i =? j then None else f | _ => f end) l (aLook m i)); [|apply G].
  induction P as [|o l Po Pl IH]; intros m; [reflexivity|]; rewrite run_cons, IH; cbn [fold_left]; now rewrite aLook_step.
Qed.
Lemma videoNow_small l i x : Forall proper l -> videoNow l i = Some x -> small i.
Proof.
  unfold videoNow; intros P; assert (G : forall f, (forall y, f = Some y -> small i) -> fold_left (fun f o => match o with
    | Video _ _ j c w h b => if i =? j then Some (mkVS c w h b) else f | Remove V j => if i =? j then None else f | _ => f end) l f = Some x -> small i).
  { induction P as [|o l H1 H2 IH]; intros f Hf; cbn [fold_left]; [apply Hf|]; apply IH; intros y; destruct o; try apply Hf.
    - destruct (Z.eqb_spec i id); [subst; intros _; apply H1|apply Hf].
    - destruct s; [|apply Hf]; destruct (i =? id); [discriminate|apply Hf]. }
  apply G; discriminate.
Qed.
Lemma audioNow_small l i x : Forall proper l -> audioNow l i = Some x -> small i.
Proof.
  unfold audioNow; intros P; assert (G : forall f, (forall y, f = Some y -> small i) -> fold_left (fun f o => match o with
    | Audio _ _ j c r b n => if i =? j then Some (mkAS c r b n) else f | Remove A j => if i =? j then None else f | _ => f end) l f = Some x -> small i).
  { induction P as [|o l H1 H2 IH]; intros f Hf; cbn [fold_left]; [apply Hf|]; apply IH; intros y; destruct o; try apply Hf.
    - destruct (Z.eqb_spec i id); [subst; intros _; apply H1|apply Hf].
    - destruct s; [apply Hf|]; destruct (i =? id); [discriminate|apply Hf]. }
  apply G; discriminate.
Qed.
Lemma lists_of {X Y} (f : X -> Y) (P : str * X -> Prop) (m : list (str * X)) (g : Z -> option Y) :
  (forall x, P x -> keyOf (fst x)) -> Forall P m -> ordered m -> (forall i, small i -> option_map f (rfind (uintText i) m) = g i) -> (forall i x, g i = Some x -> small i) ->
  lists (map (fun r => (numOf (fst r), f (snd r))) m) g.
Proof.
  intros HP Hm Ho Hg Hs; pose proof (ordered_nodup _ Ho) as ND; assert (HK : forall x, In x m -> keyOf (fst x)) by (rewrite Forall_forall in Hm; auto); split.
  - rewrite map_map; cbn [fst]; clear Hg Ho Hm; induction m as [|[k v] m IH]; cbn [map fst]; constructor; inversion ND; subst.
    + intros C; apply in_map_iff in C as [[k' v'] [E Hin]]; cbn [fst] in E; apply H1, in_map_iff; exists (k', v'); split; auto; cbn [fst].
      destruct (key_number k) as (_ & _ & K1); [apply (HK (k, v)); now left|]; destruct (key_number k') as (_ & _ & K2); [apply (HK (k', v')); now right|]; congruence.
    + apply IH; auto; intros; apply HK; now right.
  - intros i x; split.
    + intros H; apply in_map_iff in H as [[k r] [E Hin]]; cbn [fst snd] in E; destruct (key_number k) as (_ & Sk & K); [apply (HK _ Hin)|].
      injection E as <- <-; rewrite <- Hg by auto; rewrite K; apply rfind_in in Hin; auto; now rewrite Hin.
    + intros H; pose proof (Hs _ _ H) as Si; rewrite <- Hg in H by auto; destruct (rfind (uintText i) m) as [r|] eqn:E; [|discriminate]; injection H as <-.
      apply rfind_in in E; auto; apply in_map_iff; exists (uintText i, r); split; auto; cbn [fst snd]; f_equal; unfold numOf; now rewrite (proj1 (number_uint _ (small_u64 _ Si))).
Qed.

(** What the sets say of themselves. *)
Definition vTold (m : mpd) (o : option (Z * str)) : Prop :=
  match o with Some (k, b) => exists x, mVid m = Some x /\ vaScale x = k /\ vaSeg x = segTempl V b /\ vaInit x = initTempl V b | None => mVid m = None end.
Definition aTold (m : mpd) (o : option (Z * str)) : Prop :=
  match o with Some (k, b) => exists x, mAud m = Some x /\ aaScale x = k /\ aaSeg x = segTempl A b /\ aaInit x = initTempl A b | None => mAud m = None end.
Lemma vTold_run l : forall m f, vTold m f -> vTold (run l m) (fold_left (fun f o => match V, o with V, Video k b _ _ _ _ _ => Some (k, b) | A, Audio k b _ _ _ _ _ => Some (k, b) | _, _ => f end) l f).
Proof.
  induction l as [|o l IH]; intros m f H; [exact H|]; rewrite run_cons; cbn [fold_left]; apply IH; destruct o; cbn [step].
  - exact H.
  - cbn [vTold]; eexists; repeat split; reflexivity.
  - exact H.
  - destruct s; [|exact H]; destruct f as [[k b]|]; cbn [vTold] in *; [destruct H as (x & E & Hx)|]; unfold stamp; cbn [mVid]; [rewrite E; eexists; split; [reflexivity|exact Hx]|now rewrite H].
  - destruct s; [|exact H]; destruct f as [[k b]|]; cbn [vTold] in *; [destruct H as (x & E & Hx)|]; unfold removeRepr; cbn [mVid]; [rewrite E; eexists; split; [reflexivity|exact Hx]|now rewrite H].
  - exact H.
Qed.
Lemma aTold_run l : forall m f, aTold m f -> aTold (run l m) (fold_left (fun f o => match A, o with V, Video k b _ _ _ _ _ => Some (k, b) | A, Audio k b _ _ _ _ _ => Some (k, b) | _, _ => f end) l f).
Proof.
  induction l as [|o l IH]; intros m f H; [exact H|]; rewrite run_cons; cbn [fold_left]; apply IH; destruct o; cbn [step].
  - exact H.
  - exact H.
  - cbn [aTold]; eexists; repeat split; reflexivity.
  - destruct s; [exact H|]; destruct f as [[k b]|]; cbn [aTold] in *; [destruct H as (x & E & Hx)|]; unfold stamp; cbn [mAud]; [rewrite E; eexists; split; [reflexivity|exact Hx]|now rewrite H].
  - destruct s; [exact H|]; destruct f as [[k b]|]; cbn [aTold] in *; [destruct H as (x & E & Hx)|]; unfold removeRepr; cbn [mAud]; [rewrite E; eexists; split; [reflexivity|exact Hx]|now rewrite H].
  - exact H.
Qed.
Definition wOf (m : mpd) : Z := match mVid m with Some x => vaMaxW x | None => 0 end.
Definition hOf (m : mpd) : Z := match mVid m with Some x => vaMaxH x | None => 0 end.
Lemma wide_run l : forall m, wOf (run l m) = fold_left (fun f o => match o with Video _ _ _ _ w _ _ => Z.max f w | _ => f end) l (wOf m).
Proof.
  induction l as [|o l IH]; intros m; [reflexivity|]; rewrite run_cons, IH; cbn [fold_left]; f_equal; destruct o; cbn [step]; try reflexivity.
  - unfold updateVideoRepr, updateVideoSet, wOf; cbn [mVid vaMaxW]; destruct (mVid m); cbn [vaMaxW]; destruct (_ <? w) eqn:E; lia.
  - destruct s; [|reflexivity]; unfold stamp, wOf; cbn [mVid]; now destruct (mVid m).
  - destruct s; [|reflexivity]; unfold removeRepr, wOf; cbn [mVid]; now destruct (mVid m).
Qed.
Lemma high_run l : forall m, hOf (run l m) = fold_left (fun f o => match o with Video _ _ _ _ _ h _ => Z.max f h | _ => f end) l (hOf m).
Proof.
  induction l as [|o l IH]; intros m; [reflexivity|]; rewrite run_cons, IH; cbn [fold_left]; f_equal; destruct o; cbn [step]; try reflexivity.
  - unfold updateVideoRepr, updateVideoSet, hOf; cbn [mVid vaMaxH]; destruct (mVid m); cbn [vaMaxH]; destruct (_ <? h) eqn:E; lia.
  - destruct s; [|reflexivity]; unfold stamp, hOf; cbn [mVid]; now destruct (mVid m).
  - destruct s; [|reflexivity]; unfold removeRepr, hOf; cbn [mVid]; now destruct (mVid m).
Qed.

(** Times. *)
Definition tOf (s : side) (m : mpd) : option (list (Z * Z)) := match s with V => option_map vaTimes (mVid m) | A => option_map aaTimes (mAud m) end.
Lemma push_lastn n l t d : 2 <= n -> snd (popFront n l 0) ++ [(t, d)] = lastn (Z.to_nat n) (l ++ [(t, d)]).
Proof.
  intros H. assert (E : lastn (Z.to_nat n) (l ++ [(t, d)]) = lastn (Z.to_nat n - 1) l ++ [(t, d)]).
  { unfold lastn; rewrite app_length, skipn_app; cbn [length]; f_equal; [f_equal; lia|].
    replace (length l + 1 - Z.to_nat n - length l)%nat with 0%nat by lia; reflexivity. }
  rewrite E; f_equal; clear E.
  assert (G : forall l r, snd (popFront n l r) = lastn (Z.to_nat n - 1) l); [|apply G].
  clear l t d; induction l as [|x l IH]; intros r; [reflexivity|]; cbn [popFront].
  destruct (n <=? Z.of_nat (length (x :: l))) eqn:E.
  - rewrite IH; unfold lastn; cbn [length] in *; replace (S (length l) - (Z.to_nat n - 1))%nat with (S (length l - (Z.to_nat n - 1))) by lia; reflexivity.
  - cbn [snd]; symmetry; apply lastn_all; cbn [length] in *; lia.
Qed.
Lemma times_run s l : forall (m : mpd) (n : nat) (on : bool) (w : list (Z * Z)), Forall proper l -> 2 <= mSeg m -> n = Z.to_nat (mSeg m) -> tOf s m = (if on then Some w else None) -> (on = false -> w = []) ->
  match tOf s (run l m) with Some w' => w' | None => [] end = stamped s l n on w.
Proof.
  induction l as [|o l IH]; intros m n on w P H2 -> Ht Hw.
  - change (run [] m) with m; rewrite Ht; destruct on; [reflexivity|symmetry; auto].
  - inversion P as [|? ? Po Pl]; subst; rewrite run_cons; destruct o; cbn [stamped].
    + apply IH; auto; cbn [step]; unfold mConfigure; cbn [mSeg]; [destruct (2 <=? ms) eqn:E; lia|f_equal; destruct (2 <=? ms) eqn:E; lia].
    + apply IH; auto; cbn [step].
      * unfold updateVideoRepr, updateVideoSet, tOf; destruct s; cbn [mVid mAud option_map vaTimes]; [|exact Ht].
        cbn [tOf] in Ht; destruct (mVid m), on; cbn in *; try discriminate; try congruence; now rewrite Hw.
      * destruct s; [discriminate|auto].
    + apply IH; auto; cbn [step].
      * unfold updateAudioRepr, updateAudioSet, tOf; destruct s; cbn [mVid mAud option_map aaTimes]; [exact Ht|].
        cbn [tOf] in Ht; destruct (mAud m), on; cbn in *; try discriminate; try congruence; now rewrite Hw.
      * destruct s; [auto|discriminate].
    + apply IH; auto; cbn [step].
      * destruct s0; exact H2.
      * destruct s0; reflexivity.
      * destruct s, s0; unfold stamp, tOf in *; cbn [mVid mAud option_map]; try exact Ht.
        -- destruct (mVid m), on; cbn [option_map] in *; try discriminate; [|reflexivity]; injection Ht as <-; f_equal; now apply push_lastn.
        -- destruct (mAud m), on; cbn [option_map] in *; try discriminate; [|reflexivity]; injection Ht as <-; f_equal; now apply push_lastn.
      * destruct s, s0; auto; intros ->; auto.
    + apply IH; auto; cbn [step].
      * destruct s0; exact H2.
      * destruct s0; reflexivity.
      * rewrite <- Ht; destruct s, s0; unfold removeRepr, tOf in *; cbn [mVid mAud option_map]; try reflexivity; [destruct (mVid m)|destruct (mAud m)]; reflexivity.
    + apply IH; auto.
Qed.
