From Coq Require Import Ascii String.
From Verif Require Import Base JsonModel JsonSpec.
Local Open Scope list_scope.

Section NodeInd.
  Variable P : node -> Prop.
  Hypothesis Hv : forall t s, P (Val t s).
  Hypothesis Ho : forall c, Forall (fun kv => P (snd kv)) c -> P (Obj c).
  Hypothesis Ha : forall c, Forall P c -> P (Arr c).
  Fixpoint node_ind2 (n : node) : P n :=
    match n with
    | Val t s => Hv t s
    | Obj c => Ho c ((fix go (c : list (str * node)) : Forall (fun kv => P (snd kv)) c :=
                        match c with [] => Forall_nil _ | kv :: t => Forall_cons kv (node_ind2 (snd kv)) (go t) end) c)
    | Arr c => Ha c ((fix go (c : list node) : Forall P c :=
                        match c with [] => Forall_nil _ | v :: t => Forall_cons v (node_ind2 v) (go t) end) c)
    end.
End NodeInd.

(** Strings that the scanners leave at the right place. *)
Fixpoint sOk (b : bool) (s : str) : bool :=
  match s with
  | [] => negb b
  | c :: t => (if is c quote then b else true) && sOk (is c bslash) t
  end.

Lemma is_eq c d : is c d = true <-> c = d.
Proof. apply Ascii.eqb_eq. Qed.
Lemma is_refl c : is c c = true.
Proof. apply Ascii.eqb_refl. Qed.
Lemma is_neq c d : is c d = false <-> c <> d.
Proof. apply Ascii.eqb_neq. Qed.

(** *** Escaping *)
Lemma esc_table c e : getEscaped c escTable = Some e -> getUnescaped e escTable = Some c.
Proof.
  unfold escTable. cbn [getEscaped]. intros H.
  repeat match type of H with (if is c ?u then _ else _) = _ =>
    let E := fresh in destruct (is c u) eqn:E; [apply is_eq in E; subst c; injection H as <-; reflexivity|clear E] end.
  discriminate.
Qed.
Lemma esc_none c : getEscaped c escTable = None -> is c bslash = false /\ is c quote = false.
Proof.
  unfold escTable. cbn [getEscaped]. destruct (is c bslash); [discriminate|]. destruct (is c "/"%char); [discriminate|].
  destruct (is c quote); [discriminate|]. auto.
Qed.
Lemma esc_bs : getEscaped bslash escTable = Some bslash.
Proof. reflexivity. Qed.

Theorem unescape_escape s : unescape (escape s) = s.
Proof.
  induction s as [|c t IH]; [reflexivity|]. cbn [escape]. destruct (getEscaped c escTable) as [e|] eqn:E.
  - cbn [unescape]. rewrite is_refl, (esc_table c e E), IH. reflexivity.
  - destruct (esc_none c E) as [E1 _]. cbn [unescape]. rewrite E1, IH. reflexivity.
Qed.

Lemma esc_not_bs c e : getEscaped c escTable = Some e -> c <> bslash -> is e bslash = false.
Proof.
  intros H Hc. destruct (is e bslash) eqn:Eb; [|reflexivity]. apply is_eq in Eb. subst e.
  apply esc_table in H. cbn in H. injection H as H. congruence.
Qed.

Lemma escape_ok s : goodText s -> sOk false (escape s) = true.
Proof.
  induction s as [|c t IH]; intros H; [reflexivity|].
  assert (Ht : goodText t) by (intros a Ea; apply (H (c :: a)); rewrite Ea; reflexivity).
  cbn [escape]. destruct (getEscaped c escTable) as [e|] eqn:E.
  - cbn [sOk]. change (is bslash quote) with false. rewrite is_refl. cbn [andb].
    assert (X : (if is e quote then true else true) = true) by (destruct (is e quote); reflexivity). rewrite X. cbn [andb].
    destruct (Ascii.ascii_dec c bslash) as [->|Hn].
    + injection E as <-. rewrite is_refl. destruct t as [|d t']; [exfalso; apply (H []); reflexivity|].
      specialize (IH Ht). cbn [escape] in *. destruct (getEscaped d escTable) as [e|] eqn:E2.
      * cbn [sOk] in *. change (is bslash quote) with false in *. exact IH.
      * destruct (esc_none d E2) as [_ E3]. cbn [sOk] in *. rewrite E3 in *. exact IH.
    + rewrite (esc_not_bs c e E Hn). apply IH, Ht.
  - destruct (esc_none c E) as [E1 E2]. cbn [sOk]. rewrite E1, E2. apply IH, Ht.
Qed.

Lemma name_ok_gen s : forall p, (forall a b, s = a ++ quote :: b -> exists a', p ++ a = a' ++ [bslash]) ->
  (forall a, p ++ s <> a ++ [bslash]) -> sOk (match rev p with c :: _ => is c bslash | [] => false end) s = true.
Proof.
  induction s as [|c t IH]; intros p H1 H2; cbn [sOk].
  - rewrite app_nil_r in H2. destruct (rev p) as [|x q] eqn:E; [reflexivity|]. apply negb_true_iff, is_neq. intros ->.
    apply (H2 (rev q)). rewrite <- (rev_involutive p), E. reflexivity.
  - apply andb_true_iff. split.
    + destruct (is c quote) eqn:Eq; [|reflexivity]. apply is_eq in Eq. subst c.
      destruct (H1 [] t eq_refl) as (a' & Ea). rewrite app_nil_r in Ea. rewrite Ea, rev_app_distr. apply is_refl.
    + specialize (IH (p ++ [c])). rewrite rev_app_distr in IH. cbn in IH. apply IH.
      * intros a b ->. destruct (H1 (c :: a) b eq_refl) as (a' & Ea). exists a'. rewrite <- Ea, <- app_assoc. reflexivity.
      * intros a. rewrite <- app_assoc. apply H2.
Qed.
Lemma name_ok s : goodName s -> sOk false s = true.
Proof. intros [H1 H2]. apply (name_ok_gen s []); assumption. Qed.

(** *** Unfolding the writer *)
Fixpoint members (f : format) (level : nat) (first : bool) (c : list (str * node)) : str :=
  match c with
  | [] => []
  | (k, v) :: t =>
      (if first then [] else lit "," ++ getNewline f) ++ getIndentation f (S level) ++ quoted k ++ lit ":" ++
      getSpacing f ++ writeNode f v (S level) ++ members f level false t
  end.
Fixpoint items (f : format) (level : nat) (first : bool) (c : list node) : str :=
  match c with
  | [] => []
  | v :: t => (if first then [] else lit "," ++ getNewline f) ++ getIndentation f (S level) ++ writeNode f v (S level) ++ items f level false t
  end.
Lemma write_obj f c level : writeNode f (Obj c) level =
  lit "{" ++ getNewline f ++ members f level true c ++ getNewline f ++ getIndentation f level ++ lit "}".
Proof.
  assert (H : forall c b, (fix go (first : bool) (c : list (str * node)) : str :=
         match c with
         | [] => []
         | (k, v) :: t =>
             (if first then [] else lit "," ++ getNewline f) ++ getIndentation f (S level) ++ quoted k ++ lit ":" ++
             getSpacing f ++ writeNode f v (S level) ++ go false t
         end) b c = members f level b c).
  { clear c. induction c as [|[k v] t IH]; intros b; [reflexivity|]. cbn [members]. rewrite <- IH. reflexivity. }
  cbn [writeNode]. rewrite <- H. reflexivity.
Qed.
Lemma write_arr f c level : writeNode f (Arr c) level =
  lit "[" ++ getNewline f ++ items f level true c ++ getNewline f ++ getIndentation f level ++ lit "]".
Proof.
  assert (H : forall c b, (fix go (first : bool) (c : list node) : str :=
         match c with
         | [] => []
         | v :: t => (if first then [] else lit "," ++ getNewline f) ++ getIndentation f (S level) ++ writeNode f v (S level) ++ go false t
         end) b c = items f level b c).
  { clear c. induction c as [|v t IH]; intros b; [reflexivity|]. cbn [items]. rewrite <- IH. reflexivity. }
  cbn [writeNode]. rewrite <- H. reflexivity.
Qed.

(** *** Removing white space *)
Definition plain (c : ascii) : bool := negb (is c quote || is c bslash || is c "/" || is c "*").
Notation strip0 := (strip false false false 0).

Lemma strip_plain p l : forallb plain p = true -> strip0 (p ++ l) = filter (fun c => negb (space c)) p ++ strip0 l.
Proof.
  induction p as [|c t IH]; intros H; [reflexivity|]. cbn [forallb] in H. apply andb_true_iff in H. destruct H as [Hc Ht].
  unfold plain in Hc. apply negb_true_iff, orb_false_iff in Hc. destruct Hc as [Hc H4]. apply orb_false_iff in Hc. destruct Hc as [Hc H3].
  apply orb_false_iff in Hc. destruct Hc as [H1 H2].
  cbn [app strip filter negb]. rewrite H1, H2, H3, H4. cbn [andb negb orb].
  replace (if is c "010" then false else false) with false by (destruct (is c "010"); reflexivity). rewrite (IH Ht).
  change (0 <? 0)%Z with false. cbn [orb]. destruct (negb (space c)); reflexivity.
Qed.

Lemma strip_string s : forall b l, sOk b s = true -> strip b true false 0 (s ++ quote :: l) = s ++ quote :: strip0 l.
Proof.
  induction s as [|c t IH]; intros b l H; cbn [sOk] in H.
  - apply negb_true_iff in H. subst b. cbn [app strip]. rewrite is_refl. cbn [negb andb].
    change (is quote "/") with false. change (is quote "*") with false. change (is quote "010") with false. change (is quote bslash) with false.
    cbn [andb orb]. change (0 <? 0)%Z with false. change (space quote) with false. reflexivity.
  - apply andb_true_iff in H. destruct H as [H1 H2]. cbn [app strip].
    assert (E : (if negb b && is c quote then negb true else true) = true).
    { destruct (is c quote); [rewrite H1; reflexivity|]. rewrite andb_false_r. reflexivity. }
    rewrite E. cbn [negb andb orb]. change (0 <? 0)%Z with false. cbn [orb]. rewrite (IH _ l H2). reflexivity.
Qed.

Lemma strip_quoted s l : sOk false s = true -> strip0 (quoted s ++ l) = quoted s ++ strip0 l.
Proof.
  intros H. unfold quoted. cbn [app strip]. rewrite is_refl. cbn [negb andb]. change (0 <? 0)%Z with false. cbn [orb].
  change (is quote bslash) with false. rewrite <- !app_assoc. cbn [app]. rewrite (strip_string s false l H). reflexivity.
Qed.

Lemma strip_white p l : forallb space p = true -> strip0 (p ++ l) = strip0 l.
Proof.
  intros H. rewrite strip_plain.
  - assert (E : filter (fun c => negb (space c)) p = []).
    { induction p as [|c t IH]; [reflexivity|]. cbn in *. apply andb_true_iff in H. destruct H as [-> H]. cbn. auto. }
    rewrite E. reflexivity.
  - induction p as [|c t IH]; [reflexivity|]. cbn in *. apply andb_true_iff in H. destruct H as [Hc H]. rewrite (IH H), andb_true_r.
    unfold space in Hc. repeat (apply orb_true_iff in Hc; destruct Hc as [Hc|Hc]); apply is_eq in Hc; subst c; reflexivity.
Qed.
Lemma spacing_white f : forallb space (getSpacing f) = true.
Proof. unfold getSpacing. destruct (spacing f); reflexivity. Qed.
Lemma newline_white f : forallb space (getNewline f) = true.
Proof. unfold getNewline. destruct (newline f); [reflexivity|apply spacing_white]. Qed.
Lemma indent_white f n : forallb space (getIndentation f n) = true.
Proof.
  unfold getIndentation. destruct (newline f); [|reflexivity]. induction (indentSize f * n) as [|k IH]; [reflexivity|].
  cbn [repeat forallb]. rewrite IH. destruct (useTabs f); reflexivity.
Qed.

Lemma goodNumber_chars s : Forall (fun c => In c (list_ascii_of_string "0123456789.-")) s ->
  forallb plain s = true /\ filter (fun c => negb (space c)) s = s /\ forallb isNumber s = true /\
  forallb (fun c => match tokenOf c with None => negb (is c quote) | Some _ => false end) s = true.
Proof.
  induction 1 as [|c t Hc _ IH]; [auto|]. destruct IH as (I1 & I2 & I3 & I4). cbn in Hc.
  repeat (destruct Hc as [<-|Hc]; [cbn; rewrite I1, I2, I3, I4; auto|]). contradiction.
Qed.

Lemma plain1 (c : string) l : forallb plain (lit c) = true -> forallb (fun x => negb (space x)) (lit c) = true -> strip0 (lit c ++ l) = lit c ++ strip0 l.
Proof.
  intros H1 H2. rewrite strip_plain by exact H1. f_equal. clear H1. induction (lit c) as [|x t IH]; [reflexivity|]. cbn in *.
  apply andb_true_iff in H2. destruct H2 as [-> H2]. f_equal. auto.
Qed.

Lemma strip_write n : good n -> forall f level l, strip0 (writeNode f n level ++ l) = writeNode NoFormat n level ++ strip0 l.
Proof.
  induction n as [t s|c IH|c IH] using node_ind2; intros G f level l.
  - inversion G; subst.
    + apply (plain1 "null"); reflexivity.
    + apply (plain1 "true"); reflexivity.
    + apply (plain1 "false"); reflexivity.
    + destruct H0 as [_ Hs]. destruct (goodNumber_chars s Hs) as (A & B & _). cbn [writeNode toString]. rewrite strip_plain by exact A. rewrite B. reflexivity.
    + apply (strip_quoted (escape s)). apply escape_ok. assumption.
  - inversion G; subst. rewrite !write_obj. cbn [getNewline getSpacing NoFormat newline spacing getIndentation]. rewrite <- !app_assoc.
    rewrite (plain1 "{") by reflexivity. f_equal. rewrite strip_white by apply newline_white. cbn [app].
    assert (M : forall b l', strip0 (members f level b c ++ l') = members NoFormat level b c ++ strip0 l').
    { clear G. induction c as [|[k v] t IHc]; intros b l'; [reflexivity|]. inversion IH; subst.
      assert (Hk := H0 k v (or_introl eq_refl)). destruct Hk as [Hk Hg].
      cbn [members]. cbn [getNewline getSpacing NoFormat newline spacing getIndentation]. cbn [snd] in *. rewrite <- !app_assoc.
      assert (B : forall x, strip0 ((if b then [] else lit "," ++ getNewline f) ++ x) = (if b then [] else lit "," ++ []) ++ strip0 x).
      { intros x. destruct b; [reflexivity|]. rewrite <- !app_assoc. rewrite (plain1 ",") by reflexivity.
        rewrite strip_white by apply newline_white. reflexivity. }
      rewrite B, strip_white by apply indent_white. rewrite strip_quoted by (apply name_ok; exact Hk).
      rewrite (plain1 ":") by reflexivity. rewrite strip_white by apply spacing_white.
      rewrite (H2 Hg), IHc; [|assumption|intros; apply H0; right; assumption]. cbn [app]. rewrite <- ?app_assoc. reflexivity. }
    rewrite M, strip_white by apply newline_white. rewrite strip_white by apply indent_white. rewrite (plain1 "}") by reflexivity. reflexivity.
  - inversion G; subst. rewrite !write_arr. cbn [getNewline getSpacing NoFormat newline spacing getIndentation]. rewrite <- !app_assoc.
    rewrite (plain1 "[") by reflexivity. f_equal. rewrite strip_white by apply newline_white. cbn [app].
    assert (M : forall b l', strip0 (items f level b c ++ l') = items NoFormat level b c ++ strip0 l').
    { clear G. induction c as [|v t IHc]; intros b l'; [reflexivity|]. inversion IH; subst.
      assert (Hg := H0 v (or_introl eq_refl)).
      cbn [items]. cbn [getNewline getSpacing NoFormat newline spacing getIndentation]. rewrite <- !app_assoc.
      assert (B : forall x, strip0 ((if b then [] else lit "," ++ getNewline f) ++ x) = (if b then [] else lit "," ++ []) ++ strip0 x).
      { intros x. destruct b; [reflexivity|]. rewrite <- !app_assoc. rewrite (plain1 ",") by reflexivity.
        rewrite strip_white by apply newline_white. reflexivity. }
      rewrite B, strip_white by apply indent_white.
      rewrite (H2 Hg), IHc; [|assumption|intros; apply H0; right; assumption]. cbn [app]. rewrite <- ?app_assoc. reflexivity. }
    rewrite M, strip_white by apply newline_white. rewrite strip_white by apply indent_white. rewrite (plain1 "]") by reflexivity. reflexivity.
Qed.

(** *** Tokens *)
Fixpoint toksOf (n : node) : list token :=
  match n with
  | Val _ _ => [T_VALUE]
  | Obj c => T_OBJ_BEGIN :: (fix go (first : bool) (c : list (str * node)) : list token :=
               match c with
               | [] => []
               | (k, v) :: t => (if first then [] else [T_SEPARATOR_NODE]) ++ [T_VALUE; T_SEPARATOR_NAME] ++ toksOf v ++ go false t
               end) true c ++ [T_OBJ_END]
  | Arr c => T_ARRAY_BEGIN :: (fix go (first : bool) (c : list node) : list token :=
               match c with
               | [] => []
               | v :: t => (if first then [] else [T_SEPARATOR_NODE]) ++ toksOf v ++ go false t
               end) true c ++ [T_ARRAY_END]
  end.
Fixpoint dataOf (n : node) : list (vtype * str) :=
  match n with
  | Val VT_STRING s => [(VT_STRING, escape s)]
  | Val t s => [(t, s)]
  | Obj c => flat_map (fun kv => (VT_STRING, fst kv) :: dataOf (snd kv)) c
  | Arr c => flat_map dataOf c
  end.
Fixpoint memTok (first : bool) (c : list (str * node)) : list token :=
  match c with
  | [] => []
  | (k, v) :: t => (if first then [] else [T_SEPARATOR_NODE]) ++ [T_VALUE; T_SEPARATOR_NAME] ++ toksOf v ++ memTok false t
  end.
Fixpoint itTok (first : bool) (c : list node) : list token :=
  match c with
  | [] => []
  | v :: t => (if first then [] else [T_SEPARATOR_NODE]) ++ toksOf v ++ itTok false t
  end.
Lemma toks_obj c : toksOf (Obj c) = T_OBJ_BEGIN :: memTok true c ++ [T_OBJ_END].
Proof. reflexivity. Qed.
Lemma toks_arr c : toksOf (Arr c) = T_ARRAY_BEGIN :: itTok true c ++ [T_ARRAY_END].
Proof. reflexivity. Qed.

Lemma tok_string s : forall b a l, sOk b s = true ->
  tok (Some (b, a)) [] (s ++ quote :: l) = (T_VALUE :: fst (tok None [] l), (VT_STRING, a ++ s) :: snd (tok None [] l)).
Proof.
  induction s as [|c t IH]; intros b a l H; cbn [sOk] in H.
  - apply negb_true_iff in H. subst b. cbn [app tok flush negb andb fst snd]. rewrite is_refl, app_nil_r. destruct (tok None [] l). reflexivity.
  - apply andb_true_iff in H. destruct H as [H1 H2]. cbn [app tok].
    assert (E : negb b && is c quote = false) by (destruct (is c quote); [rewrite H1; reflexivity|apply andb_false_r]).
    rewrite E, (IH _ _ l H2), <- app_assoc. reflexivity.
Qed.
Lemma tok_quoted s l : sOk false s = true ->
  tok None [] (quoted s ++ l) = (T_VALUE :: fst (tok None [] l), (VT_STRING, s) :: snd (tok None [] l)).
Proof.
  intros H. unfold quoted. rewrite <- app_comm_cons, <- app_assoc.
  change (tok None [] (quote :: s ++ [quote] ++ l)) with (tok (Some (false, [])) [] (s ++ quote :: l)). apply (tok_string s false [] l H).
Qed.
Definition starts (l : str) : Prop := match l with [] => True | c :: _ => tokenOf c <> None end.
Lemma tok_buffer v : forall buf l, v <> [] ->
  forallb (fun c => match tokenOf c with None => negb (is c quote) | Some _ => false end) v = true -> starts l ->
  tok None buf (v ++ l) = (fst (flush (buf ++ v)) ++ fst (tok None [] l), snd (flush (buf ++ v)) ++ snd (tok None [] l)).
Proof.
  induction v as [|c t IH]; intros buf l Hn H S; [congruence|]. cbn [forallb] in H. apply andb_true_iff in H. destruct H as [Hc Ht].
  destruct (tokenOf c) eqn:Ec; [discriminate|]. apply negb_true_iff in Hc. cbn [app tok]. rewrite Ec, Hc.
  destruct t as [|d t'].
  - cbn [app]. destruct l as [|x l'].
    + cbn [tok fst snd]. rewrite !app_nil_r. destruct (flush (buf ++ [c])). reflexivity.
    + cbn [starts] in S. cbn [tok]. destruct (tokenOf x) as [k|]; [|congruence]. destruct (flush (buf ++ [c])) as [a b].
      cbn [flush]. destruct (tok None [] l'). reflexivity.
  - change ((d :: t') ++ l) with (d :: t' ++ l). cbn beta iota. change (d :: t' ++ l) with ((d :: t') ++ l).
    rewrite (IH (buf ++ [c]) l ltac:(discriminate) Ht S). rewrite <- app_assoc. reflexivity.
Qed.
Lemma tok_char c k l : tokenOf c = Some k -> tok None [] (c :: l) = (k :: fst (tok None [] l), snd (tok None [] l)).
Proof. intros H. cbn [tok]. rewrite H. cbn [flush]. destruct (tok None [] l). reflexivity. Qed.

Lemma number_value s : s <> [] -> forallb isNumber s = true -> interpretValue s = Some (VT_NUMBER, s).
Proof.
  intros Hn H. unfold interpretValue.
  assert (F : forall w x, lit w = x :: tl (lit w) -> isNumber x = false ->
     (forall c, isNumber c = true -> upper c = c) -> streq (map upper s) (lit w) = false).
  { intros w x Hw Hx Hu. unfold streq. destruct (list_eq_dec _ _ _) as [E|]; [|reflexivity]. rewrite Hw in E.
    destruct s as [|c t]; [congruence|]. cbn in E, H. injection E as E _. apply andb_true_iff in H. destruct H as [H _].
    rewrite (Hu c H) in E. congruence. }
  assert (Hu : forall c, isNumber c = true -> upper c = c).
  { intros c. destruct c as [[] [] [] [] [] [] [] []]; vm_compute; congruence. }
  rewrite (F "NULL"%string "N"%char), (F "TRUE"%string "T"%char), (F "FALSE"%string "F"%char), H by (reflexivity || exact Hu). reflexivity.
Qed.

Lemma tok_write n : good n -> forall level l, starts l ->
  tok None [] (writeNode NoFormat n level ++ l) = (toksOf n ++ fst (tok None [] l), dataOf n ++ snd (tok None [] l)).
Proof.
  induction n as [t s|c IH|c IH] using node_ind2; intros G level l Sl.
  - assert (V : forall w d, w <> [] -> forallb (fun c => match tokenOf c with None => negb (is c quote) | Some _ => false end) w = true ->
       interpretValue w = Some d -> tok None [] (w ++ l) = ([T_VALUE] ++ fst (tok None [] l), [d] ++ snd (tok None [] l))).
    { intros w d Hn Hf Hi. rewrite (tok_buffer w [] l Hn Hf Sl). cbn [app]. unfold flush. destruct w; [congruence|]. rewrite Hi. reflexivity. }
    inversion G; subst.
    + apply (V (lit "null") (VT_NULL, [])); [discriminate|reflexivity|reflexivity].
    + apply (V (lit "true") (VT_BOOL, lit "true")); [discriminate|reflexivity|reflexivity].
    + apply (V (lit "false") (VT_BOOL, lit "false")); [discriminate|reflexivity|reflexivity].
    + destruct H0 as [Hn Hs]. destruct (goodNumber_chars s Hs) as (_ & _ & A & B). apply (V s (VT_NUMBER, s) Hn B). apply number_value; assumption.
    + apply (tok_quoted (escape s)). apply escape_ok. assumption.
  - inversion G; subst. rewrite write_obj, toks_obj. cbn [getNewline getSpacing NoFormat newline spacing getIndentation app dataOf]. rewrite <- !app_assoc.
    change (lit "{" ++ members NoFormat level true c ++ lit "}" ++ l) with ("{"%char :: members NoFormat level true c ++ lit "}" ++ l).
    rewrite (tok_char "{" T_OBJ_BEGIN) by reflexivity.
    assert (M : forall b l', starts l' -> tok None [] (members NoFormat level b c ++ l') =
       (memTok b c ++ fst (tok None [] l'), flat_map (fun kv => (VT_STRING, fst kv) :: dataOf (snd kv)) c ++ snd (tok None [] l'))).
    { clear G Sl. induction c as [|[k v] t IHc]; intros b l' Sl; [cbn; destruct (tok None [] l'); reflexivity|]. inversion IH; subst.
      assert (Hk := H0 k v (or_introl eq_refl)). destruct Hk as [Hk Hg]. cbn [snd] in *.
      cbn [members memTok flat_map]. cbn [getNewline getSpacing NoFormat newline spacing getIndentation]. rewrite <- !app_assoc. cbn [app fst snd].
      assert (B : forall x, tok None [] ((if b then [] else lit "," ++ []) ++ x) = ((if b then [] else [T_SEPARATOR_NODE]) ++ fst (tok None [] x), snd (tok None [] x))).
      { intros x. destruct b; [cbn [app]; destruct (tok None [] x); reflexivity|]. apply (tok_char "," T_SEPARATOR_NODE). reflexivity. }
      rewrite B. rewrite tok_quoted by (apply name_ok; exact Hk). cbn [fst snd].
      change (lit ":" ++ writeNode NoFormat v (S level) ++ members NoFormat level false t ++ l') with (":"%char :: writeNode NoFormat v (S level) ++ members NoFormat level false t ++ l').
      rewrite (tok_char ":" T_SEPARATOR_NAME) by reflexivity. cbn [fst snd].
      assert (St : starts (members NoFormat level false t ++ l')).
      { destruct t as [|[k2 v2] t2]; [exact Sl|]. cbn. discriminate. }
      rewrite (H2 Hg (S level) _ St). rewrite IHc; [|assumption|intros; apply H0; right; assumption|exact Sl].
      cbn [fst snd app]. rewrite <- ?app_assoc. reflexivity. }
    rewrite M by (cbn; discriminate). change (lit "}" ++ l) with ("}"%char :: l). rewrite (tok_char "}" T_OBJ_END) by reflexivity.
    cbn [fst snd app]. rewrite <- ?app_assoc. reflexivity.
  - inversion G; subst. rewrite write_arr, toks_arr. cbn [getNewline getSpacing NoFormat newline spacing getIndentation app dataOf]. rewrite <- !app_assoc.
    change (lit "[" ++ items NoFormat level true c ++ lit "]" ++ l) with ("["%char :: items NoFormat level true c ++ lit "]" ++ l).
    rewrite (tok_char "[" T_ARRAY_BEGIN) by reflexivity.
    assert (M : forall b l', starts l' -> tok None [] (items NoFormat level b c ++ l') =
       (itTok b c ++ fst (tok None [] l'), flat_map dataOf c ++ snd (tok None [] l'))).
    { clear G Sl. induction c as [|v t IHc]; intros b l' Sl; [cbn; destruct (tok None [] l'); reflexivity|]. inversion IH; subst.
      assert (Hg := H0 v (or_introl eq_refl)).
      cbn [items itTok flat_map]. cbn [getNewline getSpacing NoFormat newline spacing getIndentation]. rewrite <- !app_assoc. cbn [app].
      assert (B : forall x, tok None [] ((if b then [] else lit "," ++ []) ++ x) = ((if b then [] else [T_SEPARATOR_NODE]) ++ fst (tok None [] x), snd (tok None [] x))).
      { intros x. destruct b; [cbn [app]; destruct (tok None [] x); reflexivity|]. apply (tok_char "," T_SEPARATOR_NODE). reflexivity. }
      rewrite B.
      assert (St : starts (items NoFormat level false t ++ l')).
      { destruct t as [|v2 t2]; [exact Sl|]. cbn. discriminate. }
      rewrite (H2 Hg (S level) _ St). rewrite IHc; [|assumption|intros; apply H0; right; assumption|exact Sl].
      cbn [fst snd app]. rewrite <- ?app_assoc. reflexivity. }
    rewrite M by (cbn; discriminate). change (lit "]" ++ l) with ("]"%char :: l). rewrite (tok_char "]" T_ARRAY_END) by reflexivity.
    cbn [fst snd app]. rewrite <- ?app_assoc. reflexivity.
Qed.

(** *** Assembling *)
Definition noName (t : list token) : Prop := match t with T_SEPARATOR_NAME :: _ => False | _ => True end.

Lemma mkValue_of t s : good (Val t s) -> exists d, dataOf (Val t s) = [d] /\ mkValue d = Val t s.
Proof.
  inversion 1; subst; cbn [dataOf]; eexists; split; try reflexivity. unfold mkValue. cbn [fst snd]. rewrite unescape_escape. reflexivity.
Qed.
Lemma asm_value t d dt nm p s name root p' : noName t -> addChild name (mkValue d) p = Some p' ->
  assemble (T_VALUE :: t) (d :: dt) ((nm, p) :: s) name root = assemble t dt ((nm, p') :: s) [] root.
Proof. intros Hn Ha. cbn [assemble]. destruct t as [|[] t']; try contradiction; rewrite Ha; reflexivity. Qed.

Lemma asm_members n c : (forall k v, In (k, v) c -> good v) ->
  Forall (fun kv => good (snd kv) -> forall t d nm p s name root p', noName t -> addChild name (snd kv) p = Some p' ->
    assemble (toksOf (snd kv) ++ t) (dataOf (snd kv) ++ d) ((nm, p) :: s) name root = assemble t d ((nm, p') :: s) [] root) c ->
  forall b t d nm s root, noName t ->
    assemble (memTok b c ++ t) (flat_map (fun kv => (VT_STRING, fst kv) :: dataOf (snd kv)) c ++ d) ((nm, Obj n) :: s) [] root =
    assemble t d ((nm, Obj (n ++ c)) :: s) [] root.
Proof.
  revert n. induction c as [|[k v] r IHc]; intros n G F b t d nm s root Hn; [cbn; rewrite app_nil_r; reflexivity|].
  inversion F; subst. cbn [memTok flat_map fst snd] in *. rewrite <- !app_assoc.
  assert (B : forall x y name, assemble ((if b then [] else [T_SEPARATOR_NODE]) ++ x) y ((nm, Obj n) :: s) name root = assemble x y ((nm, Obj n) :: s) name root).
  { intros. destruct b; reflexivity. }
  rewrite B. cbn [app]. 
  change (assemble (T_VALUE :: T_SEPARATOR_NAME :: toksOf v ++ memTok false r ++ t)
            ((VT_STRING, k) :: dataOf v ++ flat_map (fun kv => (VT_STRING, fst kv) :: dataOf (snd kv)) r ++ d) ((nm, Obj n) :: s) [] root)
    with (assemble (toksOf v ++ memTok false r ++ t) (dataOf v ++ flat_map (fun kv => (VT_STRING, fst kv) :: dataOf (snd kv)) r ++ d) ((nm, Obj n) :: s) k root).
  rewrite (H1 (G k v (or_introl eq_refl)) _ _ nm (Obj n) s k root (Obj (n ++ [(k, v)]))); [| |reflexivity].
  - rewrite IHc; [rewrite <- app_assoc; reflexivity|intros; apply (G k0 v0); right; assumption|assumption|exact Hn].
  - destruct r as [|[k2 v2] r2]; [exact Hn|exact I].
Qed.
Lemma asm_items n c : (forall v, In v c -> good v) ->
  Forall (fun v => good v -> forall t d nm p s name root p', noName t -> addChild name v p = Some p' ->
    assemble (toksOf v ++ t) (dataOf v ++ d) ((nm, p) :: s) name root = assemble t d ((nm, p') :: s) [] root) c ->
  forall b t d nm s root, noName t ->
    assemble (itTok b c ++ t) (flat_map dataOf c ++ d) ((nm, Arr n) :: s) [] root = assemble t d ((nm, Arr (n ++ c)) :: s) [] root.
Proof.
  revert n. induction c as [|v r IHc]; intros n G F b t d nm s root Hn; [cbn; rewrite app_nil_r; reflexivity|].
  inversion F; subst. cbn [itTok flat_map] in *. rewrite <- !app_assoc.
  assert (B : forall x y name, assemble ((if b then [] else [T_SEPARATOR_NODE]) ++ x) y ((nm, Arr n) :: s) name root = assemble x y ((nm, Arr n) :: s) name root).
  { intros. destruct b; reflexivity. }
  rewrite B. rewrite (H1 (G v (or_introl eq_refl)) _ _ nm (Arr n) s [] root (Arr (n ++ [v]))); [| |reflexivity].
  - rewrite IHc; [rewrite <- app_assoc; reflexivity|intros; apply (G v0); right; assumption|assumption|exact Hn].
  - destruct r as [|v2 r2]; [exact Hn|exact I].
Qed.

Lemma asm_node n : good n -> forall t d nm p s name root p', noName t -> addChild name n p = Some p' ->
  assemble (toksOf n ++ t) (dataOf n ++ d) ((nm, p) :: s) name root = assemble t d ((nm, p') :: s) [] root.
Proof.
  induction n as [vt vs|c IH|c IH] using node_ind2; intros G t d nm p s name root p' Hn Ha.
  - destruct (mkValue_of vt vs G) as (x & E & Ev). rewrite E. cbn [toksOf app]. apply asm_value; [exact Hn|]. rewrite Ev. exact Ha.
  - inversion G; subst. rewrite toks_obj. cbn [dataOf app]. rewrite <- app_assoc.
    change (assemble (T_OBJ_BEGIN :: memTok true c ++ [T_OBJ_END] ++ t) (flat_map (fun kv => (VT_STRING, fst kv) :: dataOf (snd kv)) c ++ d) ((nm, p) :: s) name root)
      with (assemble (memTok true c ++ [T_OBJ_END] ++ t) (flat_map (fun kv => (VT_STRING, fst kv) :: dataOf (snd kv)) c ++ d) ((name, Obj []) :: (nm, p) :: s) [] root).
    rewrite (asm_members [] c); [|intros k v Hkv; apply (H0 k v Hkv)|exact IH|exact I]. cbn [app assemble endMatches negb]. rewrite Ha. reflexivity.
  - inversion G; subst. rewrite toks_arr. cbn [dataOf app]. rewrite <- app_assoc.
    change (assemble (T_ARRAY_BEGIN :: itTok true c ++ [T_ARRAY_END] ++ t) (flat_map dataOf c ++ d) ((nm, p) :: s) name root)
      with (assemble (itTok true c ++ [T_ARRAY_END] ++ t) (flat_map dataOf c ++ d) ((name, Arr []) :: (nm, p) :: s) [] root).
    rewrite (asm_items [] c); [|exact H0|exact IH|exact I]. cbn [app assemble endMatches negb]. rewrite Ha. reflexivity.
Qed.

Lemma all_asm_obj (c : list (str * node)) : Forall (fun kv => good (snd kv) -> forall t d nm p s name root p', noName t -> addChild name (snd kv) p = Some p' ->
    assemble (toksOf (snd kv) ++ t) (dataOf (snd kv) ++ d) ((nm, p) :: s) name root = assemble t d ((nm, p') :: s) [] root) c.
Proof. apply Forall_forall. intros [k v] _ G. apply asm_node, G. Qed.
Lemma all_asm_arr c : Forall (fun v => good v -> forall t d nm p s name root p', noName t -> addChild name v p = Some p' ->
    assemble (toksOf v ++ t) (dataOf v ++ d) ((nm, p) :: s) name root = assemble t d ((nm, p') :: s) [] root) c.
Proof. apply Forall_forall. intros v _ G. apply asm_node, G. Qed.

Lemma asm_root n : good n -> assemble (toksOf n) (dataOf n) [] [] (blank n) = AOk n [].
Proof.
  intros G. destruct n as [t s|c|c]; cbn [blank].
  - destruct (mkValue_of t s G) as (x & E & Ev). rewrite E. cbn. rewrite Ev. reflexivity.
  - inversion G; subst. rewrite toks_obj. cbn [dataOf].
    change (assemble (T_OBJ_BEGIN :: memTok true c ++ [T_OBJ_END]) (flat_map (fun kv => (VT_STRING, fst kv) :: dataOf (snd kv)) c) [] [] (Obj []))
      with (assemble (memTok true c ++ [T_OBJ_END]) (flat_map (fun kv => (VT_STRING, fst kv) :: dataOf (snd kv)) c) [([], Obj [])] [] (Obj [])).
    rewrite <- (app_nil_r (flat_map _ c)). rewrite (asm_members [] c); [|intros k v Hkv; apply (H0 k v Hkv)|apply all_asm_obj|exact I]. reflexivity.
  - inversion G; subst. rewrite toks_arr. cbn [dataOf].
    change (assemble (T_ARRAY_BEGIN :: itTok true c ++ [T_ARRAY_END]) (flat_map dataOf c) [] [] (Arr []))
      with (assemble (itTok true c ++ [T_ARRAY_END]) (flat_map dataOf c) [([], Arr [])] [] (Arr [])).
    rewrite <- (app_nil_r (flat_map _ c)). rewrite (asm_items [] c); [|exact H0|apply all_asm_arr|exact I]. reflexivity.
Qed.

Theorem roundtrip f n : good n -> parse newParser (blank n) (write f n) = Parsed newParser n.
Proof.
  intros G. unfold parse, tokenize, removeWhitespace, write. pose proof (strip_write n G f 0 []) as E. cbn [strip] in E. rewrite !app_nil_r in E. rewrite E.
  pose proof (tok_write n G 0 [] I) as T. rewrite app_nil_r in T. cbn [tok fst snd] in T. rewrite !app_nil_r in T. rewrite T.
  cbn [newParser ptokens pdata app]. rewrite (asm_root n G). reflexivity.
Qed.

(** *** The two queues *)
Definition need (k : token) : nat := match k with T_VALUE | T_UNKNOWN => 1 | _ => 0 end.
Fixpoint needs (l : list token) : nat := match l with [] => 0 | k :: t => need k + needs t end.
Lemma needs_app a b : needs (a ++ b) = needs a + needs b.
Proof. induction a as [|k t IH]; cbn; [reflexivity|]. rewrite IH. lia. Qed.

Lemma flush_needs buf : needs (fst (flush buf)) = length (snd (flush buf)).
Proof. unfold flush. destruct buf as [|c t]; [reflexivity|]. destruct (interpretValue (c :: t)); reflexivity. Qed.
Lemma tok_needs l : forall m buf, needs (fst (tok m buf l)) = length (snd (tok m buf l)).
Proof.
  induction l as [|c t IH]; intros m buf; cbn [tok].
  - destruct m as [[b s]|]; [|reflexivity]. pose proof (flush_needs buf) as F. destruct (flush buf) as [tk dt]. cbn in *.
    rewrite needs_app. cbn. lia.
  - destruct m as [[b s]|].
    + destruct (negb b && is c quote); [|apply IH]. pose proof (flush_needs buf) as F. pose proof (IH None []) as I.
      destruct (flush buf) as [tk dt]. destruct (tok None [] t) as [tk' dt']. cbn in *. rewrite !needs_app, app_length. cbn. lia.
    + destruct (tokenOf c) as [k|] eqn:Ek.
      * pose proof (flush_needs buf) as F. pose proof (IH None []) as I. destruct (flush buf) as [tk dt]. destruct (tok None [] t) as [tk' dt'].
        cbn in *. rewrite needs_app, app_length. cbn.
        assert (need k = 0).
        { revert Ek. unfold tokenOf. destruct (is c "{"); [intros [= <-]; reflexivity|]. destruct (is c "}"); [intros [= <-]; reflexivity|].
          destruct (is c "["); [intros [= <-]; reflexivity|]. destruct (is c "]"); [intros [= <-]; reflexivity|].
          destruct (is c ","); [intros [= <-]; reflexivity|]. destruct (is c ":"); [intros [= <-]; reflexivity|discriminate]. }
        lia.
      * destruct (is c quote); [apply IH|]. destruct t; [apply flush_needs|apply IH].
Qed.

(** What assemble leaves behind. *)
Lemma assemble_queues n : forall toks data stack name root, length toks <= n -> needs toks <= length data ->
  match assemble toks data stack name root with
  | AOk _ d => length d + needs toks = length data
  | AErr _ t d => needs t <= length d
  | AUB => False
  end.
Proof.
  induction n as [|n IH]; intros toks data stack name root Hl Hn.
  - destruct toks; [|cbn in Hl; lia]. cbn. lia.
  - destruct toks as [|k t]; [cbn; lia|]. cbn [length] in Hl. assert (Ht : length t <= n) by lia.
    assert (STEP : forall st nm r d, needs t <= length d ->
       match assemble t d st nm r with
       | AOk _ d' => length d' + needs t = length d
       | AErr _ t' d' => needs t' <= length d'
       | AUB => False
       end) by (intros; apply IH; assumption).
    destruct k; cbn [needs need] in Hn; cbn [assemble].
    + destruct data as [|x d]; cbn in *; lia.
    + destruct stack as [|[nm p] s].
      * destruct root; [lia|apply (STEP _ _ _ data); lia|lia].
      * apply (STEP _ _ _ data). lia.
    + destruct stack as [|[nm p] s]; [lia|]. destruct (negb (endMatches T_OBJ_END p)); [lia|]. destruct s as [|[nm2 p2] s2].
      * apply (STEP _ _ _ data). lia.
      * destruct (addChild nm p p2); [apply (STEP _ _ _ data); lia|lia].
    + destruct stack as [|[nm p] s].
      * destruct root; [lia|lia|apply (STEP _ _ _ data); lia].
      * apply (STEP _ _ _ data). lia.
    + destruct stack as [|[nm p] s]; [lia|]. destruct (negb (endMatches T_ARRAY_END p)); [lia|]. destruct s as [|[nm2 p2] s2].
      * apply (STEP _ _ _ data). lia.
      * destruct (addChild nm p p2); [apply (STEP _ _ _ data); lia|lia].
    + apply (STEP _ _ _ data). lia.
    + apply (STEP _ _ _ data). lia.
    + assert (VAL : match
         match stack with
        | [] =>
            match root, data with
            | Val _ _, d :: dt => assemble t dt [(name, mkValue d)] [] root
            | Val _ _, [] => AUB
            | _, _ => AErr root t data
            end
        | (nm, p) :: s =>
            match data with
            | [] => AUB
            | d :: dt =>
                match addChild name (mkValue d) p with
                | Some p' => assemble t dt ((nm, p') :: s) [] root
                | None => assemble t dt stack [] root
                end
            end
        end with
       | AOk _ d' => length d' + (1 + needs t) = length data
       | AErr _ t' d' => needs t' <= length d'
       | AUB => False
       end).
      { destruct stack as [|[nm p] s].
        - destruct data as [|x d]; [cbn in Hn; lia|]. destruct root; cbn [length] in *; try lia.
          pose proof (STEP [(name, mkValue x)] [] (Val t0 s) d ltac:(lia)) as S. destruct (assemble t d _ _ _); auto; lia.
        - destruct data as [|x d]; [cbn in Hn; lia|]. cbn [length] in *. destruct (addChild name (mkValue x) p) as [p'|].
          + pose proof (STEP ((nm, p') :: s) [] root d ltac:(lia)) as S. destruct (assemble t d _ _ _); auto; lia.
          + pose proof (STEP ((nm, p) :: s) [] root d ltac:(lia)) as S. destruct (assemble t d _ _ _); auto; lia. }
      destruct t as [|[] t']; try exact VAL. clear VAL STEP.
      destruct data as [|[ty sx] d]; [cbn in Hn; lia|]. cbn [length needs need] in *. destruct ty; try (cbn; lia).
      pose proof (IH t' d stack sx root ltac:(cbn in Ht; lia) ltac:(lia)) as S. destruct (assemble t' d stack sx root); auto; lia.
Qed.

Lemma parse_queues p root m : needs (ptokens p) <= length (pdata p) ->
  match parse p root m with
  | Parsed p' _ => needs (ptokens p') <= length (pdata p') /\ ptokens p' = [] /\
                   length (pdata p') + needs (ptokens p) = length (pdata p)
  | Failed p' _ => needs (ptokens p') <= length (pdata p')
  | Undefined => False
  end.
Proof.
  intros H. unfold parse. pose proof (tok_needs (removeWhitespace m) None []) as T. unfold tokenize. destruct (tok None [] (removeWhitespace m)) as [tk dt].
  cbn [fst snd] in T. pose proof (assemble_queues _ (ptokens p ++ tk) (pdata p ++ dt) [] [] root (le_n _)) as A.
  rewrite needs_app, !app_length in A. specialize (A ltac:(lia)).
  destruct (assemble _ _ _ _ _) as [r d|r t d|]; cbn [ptokens pdata needs]; [|exact A|contradiction]. split; [lia|]. split; [reflexivity|].
  lia.
Qed.
