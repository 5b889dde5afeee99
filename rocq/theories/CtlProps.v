(** Property C44 (control messages carry out the commands they contain) and the part of C19
    that concerns answers. *)
From Coq Require Import Ascii String.
From Verif Require Import Base ZMap JsonModel JsonSpec JsonProofs JsonProps NamesModel NetModel PipeModel PipeSpec PipeProofs PipeProps CtlModel CtlSpec CtlProofs.
Local Open Scope list_scope.
Notation length := List.length.

(** Every int, written into a message, is read back. *)
Theorem integers_survive f k z : goodName k -> int32 z ->
  exists s, parse newParser (Obj []) (write f (Obj [(k, Val VT_NUMBER (intText z))])) = Parsed newParser (Obj [(k, Val VT_NUMBER s)]) /\
            toInt (Val VT_NUMBER s) = Some z.
Proof.
  intros K B. exists (intText z). pose proof (intText_is z B) as I0. split.
  - apply (roundtrip f (Obj [(k, Val VT_NUMBER (intText z))])). constructor. intros k' v [E | []]. inversion E; subst.
    split; [exact K | constructor; eapply intIs_good; exact I0].
  - cbn. rewrite (intIs_value _ _ I0). reflexivity.
Qed.
Print Assumptions integers_survive.

(** A request whose events mean the commands [cs], written as JSON in any format, has exactly
    the effect of these commands in order, and the answer says for each whether it succeeded.
    (If a command has undefined behaviour, so has the request.) *)
Theorem request_carried_out f evs cs p es :
  good (Obj [(lit "events", Arr evs)]) ->
  let m := write f (Obj [(lit "events", Arr evs)]) in
  (N.of_nat (length m) <= 16383)%N -> ~ In "000"%char m ->
  length evs = length cs ->
  (forall k ev c, nth_error evs k = Some ev -> nth_error cs k = Some c -> means (cmade (es k)) ev c) ->
  match commands p es 0 cs with
  | Bad b => serve newParser p es m = Crashed b
  | Ok (p', answers) =>
      exists out, serve newParser p es m = Round newParser p' (Answer (write NoFormat (Obj out))) [] /\ reports out answers
  end.
Proof.
  intros G0 m L Z Len M. unfold serve. rewrite inBuffer_id by assumption.
  pose proof (roundtrip f _ G0) as RT. cbn [blank] in RT. fold m in RT. rewrite RT. unfold processRequest.
  replace (get "events" [(lit "events", Arr evs)]) with (Some (Arr evs)) by (unfold get; cbn [child]; rewrite streq_refl; reflexivity).
  assert (F : Forall2 (fun (ev : node) (c : cmd) => True) evs cs).
  { clear - Len. revert cs Len. induction evs; intros [|] L; cbn in L; try discriminate; constructor; auto. }
  pose proof (events_means es evs cs p 0 [] [] [] F M (Forall2_nil _)) as E.
  destruct (commands p es 0 cs) as [[p' answers] | b]; [|rewrite E; reflexivity].
  destruct E as (out & E & R). exists out. rewrite E. split; [reflexivity | exact R].
Qed.
Print Assumptions request_carried_out.

(** Whatever bytes arrive in whatever order, the pipeline is only ever changed by commands: its
    state is one that some list of commands reaches. *)
Theorem only_commands_change_the_pipeline ps p h : session ps p h -> exists ch, phist p ch.
Proof. intros S0. apply (session_inv ps p h S0). Qed.
Print Assumptions only_commands_change_the_pipeline.

(** So the guarantees about identifiers hold for all messages, including malformed ones. *)
Theorem identifiers_unique_for_any_bytes ps p h : session ps p h -> NoDup (mkeys (pfilters p)) /\ NoDup (mkeys (ppaths p)).
Proof. intros S0. destruct (session_inv ps p h S0) as [_ [ch H]]. destruct (identifiers_unique p ch H) as (A & B & _). auto. Qed.
Print Assumptions identifiers_unique_for_any_bytes.

(** Parsing a message never has undefined behaviour, whatever came before. *)
Theorem reading_always_defined ps p h es m : session ps p h -> serve ps p es m <> UndefinedParse.
Proof.
  intros S0. destruct (session_inv ps p h S0) as [OK _]. unfold serve. pose proof (parse_queues ps (Obj []) (inBuffer m) OK) as Q.
  destruct (parse ps (Obj []) (inBuffer m)) as [ps1 root | ps1 root |]; [| discriminate | contradiction].
  destruct (processRequest p es root); discriminate.
Qed.
Print Assumptions reading_always_defined.

(** A request that is refused changes nothing in the pipeline; one that is understood is always
    answered, unless the program ends. *)
Theorem unanswered_changes_nothing ps p es m ps' p' pushed : serve ps p es m = Round ps' p' NoAnswer pushed -> p' = p /\ pushed = [].
Proof.
  unfold serve. destruct (parse ps (Obj []) (inBuffer m)) as [ps1 root | ps1 root |]; try discriminate.
  - destruct (processRequest p es root); discriminate.
  - intros E. inversion E. auto.
Qed.
Print Assumptions unanswered_changes_nothing.

(** Events for a filter: delivered to that filter exactly if it exists. *)
Theorem filter_event_delivered p e m a ps s f out pushed :
  member m "action" a -> member m "params" ps -> member m "filterId" (Val VT_NUMBER s) -> intIs s f ->
  exists kv, fst kv = lit "error" /\
    processEvent p e (Obj m) out pushed = Done p (out ++ [kv]) (pushed ++ (if mmem f (pfilters p) then [(f, m)] else [])) /\
    (snd kv = Val VT_NULL [] <-> mmem f (pfilters p) = true).
Proof.
  intros A P F I0. unfold processEvent. rewrite (child_member _ _ _ A), (child_member _ _ _ P), (child_member _ _ _ F).
  rewrite (intIs_value _ _ I0). destruct (mmem f (pfilters p)).
  - exists (lit "error", Val VT_NULL []). cbn. tauto.
  - eexists (lit "error", _). cbn [fst snd]. rewrite app_nil_r. split; [reflexivity|]. split; [reflexivity|]. split; discriminate.
Qed.
Print Assumptions filter_event_delivered.

(** *** An instance *)
Definition ids : env := yes.
Definition here : nat -> cenv := fun _ => mkCenv yes true (fun _ => []).
Definition num (z : Z) : node := Val VT_NUMBER (intText z).
Definition text (s : string) : node := Val VT_STRING (lit s).
Definition make (id : Z) (t : string) : node :=
  Obj [(lit "params", Obj [(lit "type", text t); (lit "id", num id)]); (lit "action", text "createFilter")].
Definition connect : node :=
  Obj [(lit "action", text "createPath");
       (lit "params", Obj [(lit "id", num 10); (lit "orgFilterId", num 1); (lit "dstFilterId", num 2); (lit "orgWriterId", num 7);
                           (lit "dstReaderId", num 7); (lit "midFiltersIds", Arr [num 5])])].
Definition request : list node := [make 1 "receiver"; make 2 "transmitter"; make 5 "videoDecoder"; connect].
Definition requested : list cmd :=
  [CreateFilter 1 RECEIVER true; CreateFilter 2 TRANSMITTER true; CreateFilter 5 VIDEO_DECODER true; CreatePath 10 1 2 7 7 [5%Z]].

Lemma number_at a b k z : int32 z -> ~ In (lit k) (map fst a) -> ~ In (lit k) (map fst b) -> number (a ++ (lit k, num z) :: b) k z.
Proof. intros B A C. exists (intText z). split; [exists a, b; auto | apply intText_is, B]. Qed.
Ltac notin := let H := fresh in intros H; cbn in H; repeat (destruct H as [H | H]; [discriminate H|]); exact H.
Ltac mem a b := exists a, b; split; [reflexivity|]; split; notin.
Ltac numb a b := apply (number_at a b); [unfold int32; lia | notin | notin].

Lemma make_means id t s : int32 id -> t <> FT_NONE -> s = getFilterTypeAsString t -> means true (make id s) (CreateFilter id t true).
Proof.
  intros B T ->. do 3 eexists. split; [reflexivity|].
  split; [mem [(lit "params", Obj [(lit "type", text (getFilterTypeAsString t)); (lit "id", num id)])] (@nil (str * node))|].
  split; [mem (@nil (str * node)) [(lit "action", text "createFilter")]|]. split; [notin|].
  apply pr_createFilter; [|exact T|].
  - apply (number_at [(lit "type", text (getFilterTypeAsString t))] []); [exact B | notin | notin].
  - mem (@nil (str * node)) [(lit "id", num id)].
Qed.
Lemma connect_means : means true connect (CreatePath 10 1 2 7 7 [5%Z]).
Proof.
  do 3 eexists. split; [reflexivity|]. split; [eexists [], _; split; [reflexivity|]; split; notin|].
  split; [eexists [_], []; split; [reflexivity|]; split; notin|]. split; [notin|].
  apply pr_createPath with (ms := [num 5]).
  - exists (intText 10). split; [eexists [], _; split; [reflexivity|]; split; notin | apply intText_is; unfold int32; lia].
  - exists (intText 1). split; [eexists [_], _; split; [reflexivity|]; split; notin | apply intText_is; unfold int32; lia].
  - exists (intText 2). split; [eexists [_; _], _; split; [reflexivity|]; split; notin | apply intText_is; unfold int32; lia].
  - exists (intText 7). split; [eexists [_; _; _], _; split; [reflexivity|]; split; notin | apply intText_is; unfold int32; lia].
  - exists (intText 7). split; [eexists [_; _; _; _], _; split; [reflexivity|]; split; notin | apply intText_is; unfold int32; lia].
  - eexists [_; _; _; _; _], []. split; [reflexivity|]. split; notin.
  - constructor; [|constructor]. exists (intText 5). split; [reflexivity | apply intText_is; unfold int32; lia].
Qed.
Example request_means k ev c : nth_error request k = Some ev -> nth_error requested k = Some c -> means true ev c.
Proof.
  destruct k as [|[|[|[|k]]]]; cbn; intros E1 E2; inversion E1; inversion E2; subst.
  - apply make_means; [unfold int32; lia | discriminate | reflexivity].
  - apply make_means; [unfold int32; lia | discriminate | reflexivity].
  - apply make_means; [unfold int32; lia | discriminate | reflexivity].
  - exact connect_means.
  - destruct k; discriminate.
Qed.
Example request_served : exists p answers, commands emptyPipe here 0 requested = Ok (p, answers) /\ answers = [true; true; true; true] /\
  mmem 10 (ppaths p) = true /\
  serve newParser emptyPipe here (write StandardFormat (Obj [(lit "events", Arr request)])) =
    Round newParser p (Answer (lit "{""error"":null,""error"":null,""error"":null,""error"":null}")) [].
Proof.
  assert (E : exists p, commands emptyPipe here 0 requested = Ok (p, [true; true; true; true]) /\ mmem 10 (ppaths p) = true /\
    serve newParser emptyPipe here (write StandardFormat (Obj [(lit "events", Arr request)])) =
    Round newParser p (Answer (lit "{""error"":null,""error"":null,""error"":null,""error"":null}")) []).
  { eexists. split; [vm_compute; reflexivity|]. split; vm_compute; reflexivity. }
  destruct E as (p & A & B & C). exists p, [true; true; true; true]. auto.
Qed.

(** *** What goes wrong *)

(** A text that is refused gets no answer. *)
Theorem refused_text_unanswered_refuted : exists m ps, serve newParser emptyPipe here m = Round ps emptyPipe NoAnswer [].
Proof. exists (lit "hello"). eexists. vm_compute. reflexivity. Qed.
Print Assumptions refused_text_unanswered_refuted.

(** Correct JSON of the wrong shape ends the program, in every state of the pipeline. *)
Theorem wrong_shape_terminates_refuted p es :
  Forall (fun m => serve newParser p es m = Terminated)
    [lit "{""events"":[1]}";
     lit "{""events"":[{""action"":""stop"",""params"":[]}]}";
     lit "{""events"":[{""action"":{},""params"":{}}]}";
     lit "{""events"":[{""action"":""createFilter"",""params"":{""id"":1,""type"":[]}}]}";
     lit "{""events"":[{""action"":""createPath"",""params"":{""id"":""1"",""orgFilterId"":1,""dstFilterId"":2,""orgWriterId"":-1,""dstReaderId"":-1}}]}"].
Proof. repeat (apply Forall_cons; [vm_compute; reflexivity|]). constructor. Qed.
Print Assumptions wrong_shape_terminates_refuted.

(** The command in a refused message is carried out later, when another client only asks for the
    state. *)
Theorem refused_command_runs_later_refuted : exists ps p ps' p' a,
  session ps p [(write NoFormat (Obj [(lit "events", Arr [make 1 "receiver"])]), Answer (lit "{""error"":null}")); (spoiler, NoAnswer)] /\
  mmem 1 (pfilters p) = true /\
  serve ps p here (lit "{""events"":[{""action"":""getState"",""params"":{}}]}") = Round ps' p' a [] /\
  pfilters p' = [].
Proof.
  pose (m1 := write NoFormat (Obj [(lit "events", Arr [make 1 "receiver"])])).
  assert (E1 : exists p, serve newParser emptyPipe here m1 = Round newParser p (Answer (lit "{""error"":null}")) [] /\ mmem 1 (pfilters p) = true /\
    (exists ps, serve newParser p here spoiler = Round ps p NoAnswer [] /\
      exists ps' p' a, serve ps p here (lit "{""events"":[{""action"":""getState"",""params"":{}}]}") = Round ps' p' a [] /\ pfilters p' = [])).
  { eexists. split; [vm_compute; reflexivity|]. split; [vm_compute; reflexivity|].
    eexists. split; [vm_compute; reflexivity|]. do 3 eexists. split; [vm_compute; reflexivity|]. reflexivity. }
  destruct E1 as (p & E1 & F & ps & E2 & ps' & p' & a & E3 & E4). exists ps, p, ps', p', a.
  split; [|split; [exact F | split; [exact E3 | exact E4]]].
  pose proof (se_message _ _ _ _ _ _ _ _ _ (se_message _ _ _ _ _ _ _ _ _ se_start E1) E2) as S2. exact S2.
Qed.
Print Assumptions refused_command_runs_later_refuted.

(** Only the first 16383 bytes of a message count: what follows is ignored, whatever it is. *)
Theorem long_message_cut_refuted p es rest : let m := lit "{" ++ repeat " "%char (N.to_nat 16382) ++ rest in
  serve newParser p es m = Round newParser p (Answer (write NoFormat (Obj (err "Invalid JSON, missing 'events' tag")))) [].
Proof.
  intros m.
  assert (L : length (lit "{" ++ repeat " "%char (N.to_nat 16382)) = N.to_nat MSG_MAX).
  { rewrite app_length, repeat_length. unfold MSG_MAX. cbn [lit list_ascii_of_string length]. lia. }
  assert (B : inBuffer m = lit "{" ++ repeat " "%char (N.to_nat 16382) ++ []).
  { unfold inBuffer, m. rewrite app_assoc, firstn_app, L, Nat.sub_diag. cbn [firstn]. rewrite app_nil_r, firstn_all2 by lia.
    rewrite app_nil_r. apply cstr_id. intros I0. apply in_app_or in I0. destruct I0 as [[I0 | []] | I0]; [discriminate I0|].
    apply repeat_spec in I0. discriminate I0. }
  unfold serve. rewrite B. unfold parse, removeWhitespace. rewrite plain1 by reflexivity. rewrite strip_white; [reflexivity|].
  clear. induction (N.to_nat 16382) as [|k IH]; [reflexivity | exact IH].
Qed.
Print Assumptions long_message_cut_refuted.
