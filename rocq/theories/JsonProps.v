(** Properties C18 and C19: texts written are read back; any text leaves the parser usable. *)
From Coq Require Import Ascii String.
From Verif Require Import Base JsonModel JsonSpec JsonProofs.
Local Open Scope list_scope.
Notation length := List.length.

(** ** C18 *)

(** Every good value, written in any format, is read back as the same value, and the parser is
    as new afterwards.
    Missing for the full property: the values that are not [good] (see the refutations). *)
Theorem written_json_parses_back_partial f n :
  good n -> parse newParser (blank n) (write f n) = Parsed newParser n.
Proof. exact (roundtrip f n). Qed.
Print Assumptions written_json_parses_back_partial.

(** Hence different values of one kind have different texts, in whatever formats. *)
Theorem texts_differ f g a b : good a -> good b -> blank a = blank b -> write f a = write g b -> a = b.
Proof.
  intros A B K W. pose proof (roundtrip f a A) as RA. pose proof (roundtrip g b B) as RB.
  rewrite K, W, RB in RA. congruence.
Qed.
Print Assumptions texts_differ.

(** Any byte string that does not end in a backslash survives as a value, in any object, whatever
    control characters, quotation marks and slashes it contains. *)
Theorem any_text_survives f k s : goodName k -> goodText s ->
  parse newParser (Obj []) (write f (Obj [(k, Val VT_STRING s)])) = Parsed newParser (Obj [(k, Val VT_STRING s)]).
Proof.
  intros K S0. apply (roundtrip f (Obj [(k, Val VT_STRING s)])). constructor. intros k' v [H | []].
  inversion H; subst. split; [exact K | constructor; exact S0].
Qed.
Print Assumptions any_text_survives.

(** Comments before a text are skipped: /* ... */ and // to the end of the line, of any characters but quotation
    marks, slashes and stars (and line ends in the second form). *)
Definition plainComment (c : str) : Prop := Forall (fun x => x <> quote /\ x <> "/"%char /\ x <> "*"%char) c.
Inductive comment : str -> Prop :=
| c_block c : plainComment c -> comment (lit "/*" ++ c ++ lit "*/")
| c_line c : plainComment c -> ~ In "010"%char c -> comment (lit "//" ++ c ++ ["010"%char]).
Lemma strip_block c l : plainComment c -> forall b, strip b false false 1 (c ++ lit "*/" ++ l) = strip false false false 0 l.
Proof.
  induction 1 as [|x c (Q & S1 & S2) H IH]; intros b; [destruct b; reflexivity|]. cbn [app strip].
  rewrite (proj2 (is_neq x quote) Q), (proj2 (is_neq x "/"%char) S1), (proj2 (is_neq x "*"%char) S2). rewrite !andb_false_r. cbn [andb negb].
  change (0 <? 1)%Z with true. rewrite orb_true_r. destruct (is x "010"); apply IH.
Qed.
Lemma strip_line c l : plainComment c -> ~ In "010"%char c -> forall b, strip b false true 0 (c ++ "010"%char :: l) = strip false false false 0 l.
Proof.
  induction 1 as [|x c (Q & S1 & S2) H IH]; intros N b; [destruct b; reflexivity|]. cbn [app strip].
  rewrite (proj2 (is_neq x quote) Q), (proj2 (is_neq x "/"%char) S1), (proj2 (is_neq x "*"%char) S2). rewrite !andb_false_r. cbn [andb negb].
  rewrite (proj2 (is_neq x "010"%char)) by (intros ->; apply N; left; reflexivity). cbn [orb]. apply IH. intros I. apply N. right. exact I.
Qed.
Theorem comments_are_skipped cs f n : Forall comment cs -> good n ->
  parse newParser (blank n) (concat cs ++ write f n) = Parsed newParser n.
Proof.
  intros C G. rewrite <- (roundtrip f n G). unfold parse. replace (removeWhitespace (concat cs ++ write f n)) with (removeWhitespace (write f n)); [reflexivity|].
  unfold removeWhitespace. induction C as [|x cs C H IH]; [reflexivity|]. cbn [concat]. rewrite <- app_assoc. rewrite IH. clear IH. symmetry. destruct C as [c P|c P N].
  - rewrite <- !app_assoc. exact (strip_block c _ P false).
  - rewrite <- !app_assoc. exact (strip_line c _ P N false).
Qed.
Print Assumptions comments_are_skipped.
(** A quotation mark in a comment hides the end of the comment, and all that follows. *)
Theorem quote_in_comment_refuted :
  let msg := write NoFormat (Obj [(lit "a", Val VT_NUMBER (lit "1"))]) in
  parse newParser (Obj []) (lit "/* 5" ++ [quote] ++ lit " */" ++ msg) = Parsed newParser (Obj []).
Proof. vm_compute. reflexivity. Qed.
Print Assumptions quote_in_comment_refuted.
Example comments_example : Forall comment [lit "/* a: 1 */"; lit "// b" ++ ["010"%char]].
Proof.
  constructor; [|constructor; [|constructor]].
  - apply (c_block (lit " a: 1 ")). repeat constructor; discriminate.
  - apply (c_line (lit " b")); [repeat constructor; discriminate|]. cbn. intuition discriminate.
Qed.

Definition sample : node :=
  Obj [(lit "events", Arr [Obj [(lit "action", Val VT_STRING (lit "a/b{}:,[" ++ [quote; bslash; "010"%char; "255"%char; "x"%char]));
                                (lit "id", Val VT_NUMBER (lit "-12.5")); (lit "", Val VT_NULL [])]; Arr []; Val VT_BOOL (lit "true")]);
       (lit "events", Obj [])].
Lemma goodText_last s c : c <> bslash -> goodText (s ++ [c]).
Proof. intros C a H. apply app_inj_tail in H. destruct H as [_ H]. congruence. Qed.
Lemma goodName_plain s : existsb (fun c => is c quote || is c bslash) s = false -> goodName s.
Proof.
  intros H.
  assert (Q : forall a c b, s = a ++ c :: b -> c <> quote /\ c <> bslash).
  { intros a c b E. subst s. rewrite existsb_app in H. cbn [existsb] in H.
    apply orb_false_iff in H. destruct H as [_ H]. apply orb_false_iff in H. destruct H as [H _].
    apply orb_false_iff in H. destruct H as [H1 H2]. rewrite is_neq in H1, H2. auto. }
  split.
  - intros a b E. destruct (Q _ _ _ E) as [N _]. congruence.
  - intros a E. destruct (Q _ _ _ E) as [_ N]. congruence.
Qed.
Example sample_good : good sample.
Proof.
  unfold sample. constructor. intros k v [H | [H | []]]; inversion H; subst; clear H.
  - split; [apply goodName_plain; reflexivity|]. constructor. intros v [H | [H | [H | []]]]; subst.
    + constructor. intros k v [H | [H | [H | []]]]; inversion H; subst; clear H.
      * split; [apply goodName_plain; reflexivity|]. constructor.
        change (goodText ((lit "a/b{}:,[" ++ [quote; bslash; "010"%char; "255"%char]) ++ ["x"%char])).
        apply goodText_last. discriminate.
      * split; [apply goodName_plain; reflexivity|]. constructor. split; [discriminate|].
        cbn. repeat (constructor; [cbn; tauto|]). constructor.
      * split; [apply goodName_plain; reflexivity|]. constructor.
    + constructor. intros v [].
    + constructor.
  - split; [apply goodName_plain; reflexivity|]. constructor. intros k v [].
Qed.
Example sample_roundtrip : parse newParser (Obj []) (write StandardFormat sample) = Parsed newParser sample.
Proof. exact (roundtrip StandardFormat sample sample_good). Qed.

(** A string value ending in a backslash is not read back. *)
Theorem backslash_at_end_refuted :
  exists s, parse newParser (Obj []) (write NoFormat (Obj [(lit "path", Val VT_STRING s); (lit "id", Val VT_NUMBER (lit "1"))])) <>
            Parsed newParser (Obj [(lit "path", Val VT_STRING s); (lit "id", Val VT_NUMBER (lit "1"))]).
Proof. exists (lit "C:\"). intros H. vm_compute in H. discriminate H. Qed.
Print Assumptions backslash_at_end_refuted.

(** A name with a quotation mark breaks the text. *)
Theorem quote_in_name_refuted :
  exists k, parse newParser (Obj []) (write NoFormat (Obj [(k, Val VT_NULL [])])) <> Parsed newParser (Obj [(k, Val VT_NULL [])]).
Proof. exists (lit "a" ++ [quote]). intros H. vm_compute in H. discriminate H. Qed.
Print Assumptions quote_in_name_refuted.

(** A number whose text has an exponent, as the writer produces for one million as a double, is
    refused by the parser. *)
Theorem exponent_refused_refuted :
  exists n, match parse newParser (Obj []) (write NoFormat (Obj [(lit "bitrate", Val VT_NUMBER n)])) with
            | Parsed _ _ => False | _ => True end.
Proof. exists (lit "1e+06"). vm_compute. exact I. Qed.
Print Assumptions exponent_refused_refuted.

(** Texts cut short, and other texts that are no JSON, are accepted. *)
Theorem not_json_accepted_refuted :
  Forall (fun t => match parse newParser (Obj []) t with Parsed _ _ => True | _ => False end)
    [lit ""; lit "{"; lit "{""events"":[1,2"; lit "{""a"":{""b"":1"; lit ",,:"; lit "{}{}"; lit "{""a"" 1,}"; lit "{""a"":1--.}"].
Proof. repeat (apply Forall_cons; [vm_compute; exact I|]). constructor. Qed.
Print Assumptions not_json_accepted_refuted.

(** A text that stops inside an inner value loses all of it, silently: the command sender sees
    an object without the member. *)
Theorem cut_text_loses_members_refuted :
  exists t, parse newParser (Obj []) t = Parsed newParser (Obj []) /\ t = lit "{""events"":[{""action"":""stop"",""params"":{}}".
Proof. eexists. split; [|reflexivity]. vm_compute. reflexivity. Qed.
Print Assumptions cut_text_loses_members_refuted.

(** ** C19 *)

Lemma msgs_needs p h : msgs p h -> needs (ptokens p) <= length (pdata p).
Proof.
  induction 1 as [| p h m p' r M IH E | p h m p' r M IH E].
  - cbn. lia.
  - pose proof (parse_queues p (Obj []) m IH) as Q. rewrite E in Q. tauto.
  - pose proof (parse_queues p (Obj []) m IH) as Q. rewrite E in Q. exact Q.
Qed.

(** Whatever bytes arrived before and arrive now, the parser answers "value" or "refused": it
    never takes from an empty queue. *)
Theorem every_message_decided p h m : msgs p h ->
  exists p' r, (parse p (Obj []) m = Parsed p' r \/ parse p (Obj []) m = Failed p' r) /\
    exists o, msgs p' (h ++ [(m, o)]).
Proof.
  intros M. pose proof (msgs_needs p h M) as N. pose proof (parse_queues p (Obj []) m N) as Q.
  destruct (parse p (Obj []) m) as [p' r | p' r |] eqn:E; [| | contradiction].
  - exists p', r. split; [left; reflexivity|]. eexists. eapply ms_ok; eauto.
  - exists p', r. split; [right; reflexivity|]. eexists. eapply ms_err; eauto.
Qed.
Print Assumptions every_message_decided.

Lemma all_values_new p h : msgs p h -> (forall m o, In (m, o) h -> o <> Refused) -> p = newParser.
Proof.
  intros M. assert (K : (forall m o, In (m, o) h -> o <> Refused) -> p = newParser); [|exact K].
  induction M as [| p h m p' r M IH E | p h m p' r M IH E]; intros A.
  - reflexivity.
  - assert (P : p = newParser) by (apply IH; intros m' o I0; apply (A m'); apply in_or_app; left; exact I0). subst p.
    pose proof (parse_queues newParser (Obj []) m (Nat.le_refl 0)) as Q. rewrite E in Q.
    destruct Q as [_ [Q1 Q2]]. destruct p' as [tk dt]. cbn in Q1, Q2. subst tk. destruct dt; [reflexivity | cbn in Q2; lia].
  - exfalso. apply (A m Refused); [apply in_or_app; right; left; reflexivity | reflexivity].
Qed.

(** As long as no message has been refused, each is read exactly as by a new parser.
    Missing for the full property: the messages after a refused one (see the refutations). *)
Theorem messages_independent_partial p h m : msgs p h -> (forall m' o, In (m', o) h -> o <> Refused) ->
  parse p (Obj []) m = parse newParser (Obj []) m.
Proof. intros M A. rewrite (all_values_new p h M A). reflexivity. Qed.
Print Assumptions messages_independent_partial.

Example independent_instance : exists p h, msgs p h /\ length h = 2 /\ (forall m' o, In (m', o) h -> o <> Refused).
Proof.
  pose (m := lit "{""events"":[{""action"":""stop"",""params"":{}}]}").
  assert (E : exists r, parse newParser (Obj []) m = Parsed newParser r) by (eexists; vm_compute; reflexivity).
  destruct E as [r E]. exists newParser, ([] ++ [(m, Value r)] ++ [(m, Value r)]). split; [|split].
  - rewrite app_assoc. eapply ms_ok; [eapply ms_ok; [constructor | exact E] | exact E].
  - reflexivity.
  - intros m' o [H | [H | []]]; inversion H; discriminate.
Qed.

(** After one refused message a correct message is refused, or read as something it is not. *)
Theorem refused_message_spoils_next_refuted :
  exists bad good p, msgs p [(bad, Refused)] /\
    (exists r, parse newParser (Obj []) good = Parsed newParser r) /\
    (exists p' r, parse p (Obj []) good = Failed p' r).
Proof.
  exists (lit "{1:2}"), (lit "{""events"":[]}").
  eexists. split; [|split].
  - change [(lit "{1:2}", Refused)] with ([] ++ [(lit "{1:2}", Refused)]).
    eapply ms_err with (r := Obj []); [constructor|]. vm_compute. reflexivity.
  - eexists. vm_compute. reflexivity.
  - do 2 eexists. vm_compute. reflexivity.
Qed.
Print Assumptions refused_message_spoils_next_refuted.

(** A correct message may then be read as another one: here the rest of the refused text comes
    first in the value, so that the member "events" of the message is the one of the text
    that was refused. *)
Definition spoiler : str := lit "{]{""events"":[{""action"":""stop"",""params"":{}}]".
Theorem refused_message_changes_next_refuted :
  exists good p r r' p', msgs p [(spoiler, Refused)] /\
    parse newParser (Obj []) good = Parsed newParser (Obj [(lit "events", r)]) /\
    parse p (Obj []) good = Parsed p' (Obj [(lit "events", r'); ([], Obj [(lit "events", r)])]) /\ r <> r'.
Proof.
  exists (lit "{""events"":[{""action"":""getState"",""params"":{}}]}").
  do 4 eexists. split; [|split; [|split]].
  - change [(spoiler, Refused)] with ([] ++ [(spoiler, Refused)]).
    eapply ms_err; [constructor|]. vm_compute. reflexivity.
  - vm_compute. reflexivity.
  - vm_compute. reflexivity.
  - discriminate.
Qed.
Print Assumptions refused_message_changes_next_refuted.

(** And the parser need not recover: after the message [{1:2}] every one of any number of copies of
    a correct message is refused. *)
Definition probe : str := lit "{""events"":[]}".
Definition G : list token := [T_OBJ_BEGIN; T_VALUE; T_SEPARATOR_NAME; T_ARRAY_BEGIN; T_ARRAY_END; T_OBJ_END].
Definition leftovers : list (list token) :=
  [[T_VALUE; T_OBJ_END]; [T_OBJ_END]; []; [T_ARRAY_BEGIN; T_ARRAY_END; T_OBJ_END]; [T_ARRAY_END; T_OBJ_END]].
Fixpoint copies (k : nat) : list token := match k with O => [] | S k => G ++ copies k end.
Lemma copies_snoc k : copies k ++ G = copies (S k).
Proof. induction k; [reflexivity|]. cbn [copies] in *. rewrite <- app_assoc, IHk. reflexivity. Qed.
Definition stuck (p : parser) : Prop :=
  (exists s k, In s leftovers /\ ptokens p = s ++ copies k) /\ exists d, pdata p = (VT_NUMBER, lit "1") :: d.
Lemma probe_tokens : tokenize (removeWhitespace probe) = (G, [(VT_STRING, lit "events")]).
Proof. vm_compute. reflexivity. Qed.
Lemma stuck_step p : stuck p -> exists p' r, parse p (Obj []) probe = Failed p' r /\ stuck p'.
Proof.
  intros [[s [k [I0 T]]] [d D]]. unfold parse. rewrite probe_tokens, T, D, <- app_assoc, copies_snoc.
  destruct I0 as [<- | [<- | [<- | [<- | [<- | []]]]]]; cbn.
  - do 2 eexists. split; [reflexivity|]. split; [exists [T_OBJ_END], (S k); split; [cbn; tauto | reflexivity] | cbn; eauto].
  - do 2 eexists. split; [reflexivity|]. split; [exists [], (S k); split; [cbn; tauto | reflexivity] | cbn; eauto].
  - do 2 eexists. split; [reflexivity|].
    split; [exists [T_ARRAY_BEGIN; T_ARRAY_END; T_OBJ_END], k; split; [cbn; tauto | reflexivity] | cbn; eauto].
  - do 2 eexists. split; [reflexivity|]. split; [exists [T_ARRAY_END; T_OBJ_END], (S k); split; [cbn; tauto | reflexivity] | cbn; eauto].
  - do 2 eexists. split; [reflexivity|]. split; [exists [T_OBJ_END], (S k); split; [cbn; tauto | reflexivity] | cbn; eauto].
Qed.
Theorem parser_never_recovers_refuted :
  (exists r, parse newParser (Obj []) probe = Parsed newParser r) /\
  forall n, exists p, msgs p ((lit "{1:2}", Refused) :: repeat (probe, Refused) n).
Proof.
  split; [eexists; vm_compute; reflexivity|].
  assert (K : forall n, exists p, msgs p ((lit "{1:2}", Refused) :: repeat (probe, Refused) n) /\ stuck p).
  { induction n as [| n [p [M ST]]].
    - assert (E : parse newParser (Obj []) (lit "{1:2}") = Failed (mkParser [T_VALUE; T_OBJ_END] [(VT_NUMBER, lit "1"); (VT_NUMBER, lit "2")]) (Obj []))
        by (vm_compute; reflexivity).
      eexists. split; [exact (ms_err _ _ _ _ _ ms_nil E)|].
      split; [exists [T_VALUE; T_OBJ_END], 0; split; [cbn; tauto | reflexivity] | cbn; eauto].
    - destruct (stuck_step p ST) as [p' [r [E ST']]]. exists p'. split; [|exact ST'].
      pose proof (ms_err _ _ _ _ _ M E) as M'. cbn [app] in M'.
      replace (repeat (probe, Refused) (S n)) with (repeat (probe, Refused) n ++ [(probe, Refused)]); [exact M'|].
      clear. induction n; [reflexivity|]. cbn [repeat app] in *. congruence. }
  intros n. destruct (K n) as [p [M _]]. eauto.
Qed.
Print Assumptions parser_never_recovers_refuted.
