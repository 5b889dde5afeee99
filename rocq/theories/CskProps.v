(** Properties C97 (the control port keeps serving) and C98 (one controller, one pipeline). *)
From Coq Require Import Ascii String.
From Verif Require Import Base ZMap JsonModel JsonSpec JsonProofs JsonProps NamesModel NetModel PipeModel CtlModel CtlSpec CtlProofs CtlProps CskModel CskSpec CskProofs.
Local Open Scope list_scope.

(** Well-behaved clients, however many there are, are all answered, in the order in which they come,
    as long as no message makes the program end; and none of their connections is left open. *)
Theorem C97_all_answered_partial h cs o gs : (0 < room h)%nat -> Forall wellBehaved cs -> loop h cs newServer = (o, gs) ->
  (forall g, In g gs -> exists t, g = Answered t) /\
  (forall s, o = Some s -> length gs = length cs /\ held s = 0%nat).
Proof.
  intros R F E. destruct (loop_good h R cs newServer o gs F eq_refl eq_refl E) as [A B]. split; [exact A|].
  intros s ->. destruct (B s eq_refl) as (X & Y & _). auto.
Qed.
Print Assumptions C97_all_answered_partial.

(** Whatever clients do, the server is where the messages it has read lead, in the order in which they were
    read, and each was told what its message leads to (so that what C19, C44, C70 and C74 say of any
    sequence of messages holds of the program as it is run). *)
Theorem C97_messages h cs s gs : Forall (fun c => stays c = true) cs -> loop h cs newServer = (Some s, gs) ->
  session (par s) (pip s) (flat_map exchange (combine cs gs)).
Proof. intros F E. exact (loop_session h cs newServer _ gs [] F se_start E s eq_refl). Qed.
Print Assumptions C97_messages.

(** A client is turned away exactly if there have been as many clients that were let in and not answered
    as there are descriptors. *)
Theorem C97_turned_away h cs o gs i g : loop h cs newServer = (o, gs) -> nth_error gs i = Some g ->
  (g = NotAccepted <-> (room h <= leftOpen (firstn i gs))%nat).
Proof. intros E N. exact (loop_accepted h cs newServer o gs i g E N). Qed.
Print Assumptions C97_turned_away.

(** *** What is not so *)
Definition says (t : string) : client := mkCl (Sends (lit t) []) true here.
Lemma says_x h s : par s = newParser -> (held s < room h)%nat ->
  turnOf h (says "x") s = Goes (mkSrv newParser (pip s) (S (held s))) Unanswered.
Proof.
  intros P L. unfold turnOf. rewrite (proj2 (Nat.leb_gt _ _)) by exact L. cbn [does says]. unfold request, serve. rewrite P.
  replace (parse newParser (Obj []) (inBuffer (lit "x"))) with (Failed newParser (Obj [])) by (vm_compute; reflexivity). reflexivity.
Qed.
Lemma says_xs h n : forall s, par s = newParser -> (held s + n = room h)%nat -> forall more,
  loop h (repeat (says "x") n ++ more) s = let '(o, gs) := loop h more (mkSrv newParser (pip s) (room h)) in (o, repeat Unanswered n ++ gs).
Proof.
  induction n as [|n IH]; intros s P L more; cbn [repeat app loop].
  - replace (mkSrv newParser (pip s) (room h)) with s by (destruct s; cbn in *; subst; f_equal; lia). destruct (loop h more s); reflexivity.
  - rewrite says_x by (try exact P; lia). rewrite IH by (cbn; try reflexivity; lia). cbn [pip].
    destruct (loop h more _) as [o gs]. reflexivity.
Qed.
Lemma full h s : (room h <= held s)%nat -> forall more, loop h more s = (Some s, repeat NotAccepted (length more)).
Proof.
  intros L. induction more as [|c r IH]; cbn [loop length repeat]; [reflexivity|]. unfold turnOf. rewrite (proj2 (Nat.leb_le _ _)) by exact L.
  rewrite IH. reflexivity.
Qed.
(** Every message that cannot be read costs a connection for ever: after as many as there are
    descriptors, no client is ever served again, whatever it sends and however long the server runs. *)
Theorem C97_served_for_ever_refuted h : exists bad, length bad = room h /\
  forall more, exists s, loop h (bad ++ more) newServer = (Some s, repeat Unanswered (room h) ++ repeat NotAccepted (length more)).
Proof.
  exists (repeat (says "x") (room h)). split; [apply repeat_length|]. intros more. rewrite says_xs by reflexivity.
  rewrite full by reflexivity. eauto.
Qed.
Print Assumptions C97_served_for_ever_refuted.

(** A client that connects and says nothing keeps all the others waiting. *)
Theorem C97_silent_client_refuted h b w before more : (forall c, In c before -> wellBehaved c) -> (0 < room h)%nat ->
  exists gs, loop h (before ++ mkCl Silent b w :: more) newServer = (None, gs) /\ (length gs <= length before)%nat.
Proof.
  intros W R. assert (Q : forall cs s, held s = 0%nat -> par s = newParser -> Forall wellBehaved cs ->
    exists gs, loop h (cs ++ mkCl Silent b w :: more) s = (None, gs) /\ (length gs <= length cs)%nat).
  { induction cs as [|c r IH]; intros s H P F; cbn [app loop].
    - unfold turnOf. rewrite (proj2 (Nat.leb_gt _ _)) by lia. cbn [does]. exists []. auto.
    - inversion F as [|? ? F1 F2]; subst.
      destruct (loop h [c] s) as [o1 g1] eqn:E1.
      destruct (loop_good h R [c] s o1 g1 (Forall_cons _ F1 (Forall_nil _)) P H E1) as [_ G]. cbn [loop] in E1.
      destruct (turnOf h c s) as [s1 g | |]; [|exists []; split; [reflexivity | cbn; lia]..].
      injection E1 as <- <-. destruct (G s1 eq_refl) as (_ & H1 & P1). destruct (IH s1 H1 P1 F2) as (gs & -> & L).
      exists (g :: gs). split; [reflexivity | cbn; lia]. }
  apply Q; try reflexivity. apply Forall_forall. exact W.
Qed.
Print Assumptions C97_silent_client_refuted.

Definition asksNothing : str := lit "{""events"":[]}".
Definition firstOf : str := lit "{""events"":[{""action"":""createFilter"",""params"":{""id"":1,""type"":""receiver""}}".
Definition second : str := lit ",{""action"":""createFilter"",""params"":{""id"":2,""type"":""transmitter""}}]}".
(** A message that arrives in two pieces is not the message: its sender is told that it is no request, and
    nothing is carried out. *)
Theorem C97_pieces_refuted : exists m now later, m = now ++ later /\ forall h, (0 < room h)%nat ->
  (exists s, loop h [mkCl (Sends m []) true here] newServer = (Some s, [Answered (lit "{""error"":null,""error"":null}")]) /\
     mkeys (pfilters (pip s)) = [1%Z; 2%Z]) /\
  exists s, loop h [mkCl (Sends now later) true here] newServer = (Some s, [Answered (lit "{""error"":""Invalid JSON, missing 'events' tag""}")]) /\
     mkeys (pfilters (pip s)) = [].
Proof.
  exists (firstOf ++ second), firstOf, second. split; [reflexivity|]. intros h R.
  cbn [loop]. unfold turnOf. rewrite (proj2 (Nat.leb_gt _ _)) by exact R. cbn [does]. unfold request, answer. cbn [par pip newServer world stays].
  assert (E1 : exists p, serve newParser emptyPipe here (firstOf ++ second) = Round newParser p (Answer (lit "{""error"":null,""error"":null}")) [] /\ mkeys (pfilters p) = [1%Z; 2%Z])
    by (eexists; split; [vm_compute; reflexivity | reflexivity]).
  assert (E2 : exists p, serve newParser emptyPipe here firstOf = Round newParser p (Answer (lit "{""error"":""Invalid JSON, missing 'events' tag""}")) [] /\ mkeys (pfilters p) = [])
    by (eexists; split; [vm_compute; reflexivity | reflexivity]).
  destruct E1 as (p1 & E1 & M1), E2 as (p2 & E2 & M2). split; eexists; (split; [rewrite ?E1, ?E2; reflexivity | assumption]).
Qed.
Print Assumptions C97_pieces_refuted.

(** A client that goes before its answer is written ends the program, unless its signals are changed. *)
Theorem C97_impatient_client_refuted h more : (0 < room h)%nat -> sigpipe h = true ->
  loop h (mkCl (Sends asksNothing []) false here :: more) newServer = (None, []).
Proof.
  intros R S. cbn [loop]. unfold turnOf. rewrite (proj2 (Nat.leb_gt _ _)) by exact R. cbn [does]. unfold request, answer.
  replace (serve (par newServer) (pip newServer) (world (mkCl (Sends asksNothing []) false here)) asksNothing)
    with (Round newParser emptyPipe (Answer (lit "{}")) []) by (vm_compute; reflexivity).
  cbn [stays]. rewrite S. reflexivity.
Qed.
Print Assumptions C97_impatient_client_refuted.

(** The port given is the port listened at exactly if it is one. *)
Theorem C97_port p : listensAt p = p <-> (0 <= p < 65536)%Z.
Proof.
  unfold listensAt. split; [|apply Z.mod_small]. intros <-. apply Z.mod_pos_bound. lia.
Qed.
Print Assumptions C97_port.

Example C97_instance : exists c, wellBehaved c /\
  forall n, loop (mkHost 4 true) (repeat c n) newServer = (Some newServer, repeat (Answered (lit "{}")) n).
Proof.
  exists (mkCl (Sends asksNothing []) true here). split.
  - exists NoFormat, [(lit "events", Arr [])]. split; [|split; [reflexivity|]].
    + constructor. intros k v [E | []]. injection E as <- <-. split; [apply goodName_plain; reflexivity | constructor; intros v []].
    + split; [vm_compute; discriminate|]. split; [|reflexivity]. vm_compute. intuition discriminate.
  - induction n as [|n IH]; [reflexivity|]. cbn [repeat loop].
    replace (turnOf (mkHost 4 true) (mkCl (Sends asksNothing []) true here) newServer) with (Goes newServer (Answered (lit "{}"))) by (vm_compute; reflexivity).
    rewrite IH. reflexivity.
Qed.

(** *** C98 *)
Lemma askedAll_app a b w : askedAll (a ++ b) w =
  (fst (askedAll a w) ++ fst (askedAll b (snd (askedAll a w))), snd (askedAll b (snd (askedAll a w)))).
Proof.
  revert w. induction a as [|x a IH]; intros w; cbn [app askedAll].
  - cbn. destruct (askedAll b w); reflexivity.
  - destruct (asked x w) as [g w1]. rewrite IH. destruct (askedAll a w1) as [gs w2]. cbn [fst snd]. reflexivity.
Qed.
Lemma askedAll_length l : forall w, length (fst (askedAll l w)) = length l.
Proof. induction l as [|a r IH]; intros w; cbn [askedAll]; [reflexivity|]. destruct (asked a w) as [g w1]. specialize (IH w1). destruct (askedAll r w1). cbn in *. lia. Qed.
Lemma askedAll_below l : forall w, below w -> ~ In DestroyC l -> below (snd (askedAll l w)).
Proof.
  induction l as [|a r IH]; intros w I N; cbn [askedAll]; [exact I|]. destruct (asked a w) as [g w1] eqn:E.
  assert (Na : a <> DestroyC) by (intros ->; apply N; cbn; auto).
  destruct (below_asked _ _ _ _ Na I E) as (I1 & _). specialize (IH w1 I1 ltac:(intros H; apply N; cbn; auto)).
  destruct (askedAll r w1). exact IH.
Qed.
Definition gets (l : list ask) (i : nat) : option given := nth_error (fst (askedAll l world0)) i.
Lemma gets_at a x b : gets (a ++ x :: b) (length a) = Some (fst (asked x (snd (askedAll a world0)))).
Proof.
  unfold gets. rewrite askedAll_app. cbn [fst]. rewrite nth_error_app2; rewrite askedAll_length; [|lia]. rewrite Nat.sub_diag.
  cbn [askedAll]. destruct (asked x (snd (askedAll a world0))) as [g w]. destruct (askedAll b w). reflexivity.
Qed.
Lemma gets_later a x b i : gets (a ++ x :: b) (length a + S i) = nth_error (fst (askedAll b (snd (asked x (snd (askedAll a world0)))))) i.
Proof.
  unfold gets. rewrite askedAll_app. cbn [fst]. rewrite nth_error_app2; rewrite askedAll_length; [|lia]. replace (length a + S i - length a)%nat with (S i) by lia.
  cbn [askedAll]. destruct (asked x (snd (askedAll a world0))) as [g w]. cbn [snd]. destruct (askedAll b w). reflexivity.
Qed.

(** As long as the controller is not destroyed, nothing destroyed is ever used; whoever asks for
    the pipeline gets an object; two get the same one exactly if it was not destroyed in between; and all who
    ask for the controller get the same one. *)
Theorem C98_one_of_each_partial l : ~ In DestroyC l ->
  (forall i, gets l i <> Some Freed) /\
  (forall a b c, l = a ++ GetP :: b ++ GetP :: c -> exists o p,
     gets l (length a) = Some (Object o) /\ gets l (length a + S (length b)) = Some (Object p) /\ (o = p <-> ~ In DestroyP b)) /\
  (forall a b c, l = a ++ GetC :: b ++ GetC :: c -> exists o,
     gets l (length a) = Some (Object o) /\ gets l (length a + S (length b)) = Some (Object o)).
Proof.
  intros N. split; [|split].
  - intros i E. destruct (askedAll_later l world0 below0 N) as (F & _). apply F. eapply nth_error_In. exact E.
  - intros a b c ->. assert (Na : ~ In DestroyC a) by (intros H; apply N, in_or_app; auto).
    assert (Nb : ~ In DestroyC (b ++ GetP :: c)) by (intros H; apply N, in_or_app; cbn; auto).
    set (w := snd (askedAll a world0)). assert (I : below w) by (apply askedAll_below; [apply below0 | exact Na]).
    destruct (getP w) as [o w1] eqn:G. destruct (below_getP _ _ _ I G) as (I1 & P & _).
    rewrite gets_at, gets_later. fold w. cbn [asked]. rewrite G. cbn [fst snd].
    destruct (askedAll_later (b ++ GetP :: c) w1 I1 Nb) as (_ & A & B & _).
    assert (X : nth_error (b ++ GetP :: c) (length b) = Some GetP) by (rewrite nth_error_app2, Nat.sub_diag by lia; reflexivity).
    destruct (nth_error (fst (askedAll (b ++ GetP :: c) w1)) (length b)) as [g|] eqn:Y.
    2:{ exfalso. apply nth_error_None in Y. rewrite askedAll_length, app_length in Y. cbn in Y. lia. }
    destruct (A _ _ X Y) as (p & -> & Q). exists o, p. split; [reflexivity|]. split; [reflexivity|].
    assert (FN : firstn (length b) (b ++ GetP :: c) = b) by (rewrite firstn_app, Nat.sub_diag, firstn_all; cbn; apply app_nil_r).
    rewrite FN in Q. split.
    + intros ->. destruct Q as [Q | [_ Q]]; [|exact Q]. destruct I1 as (A1 & A2 & _). specialize (A1 _ (A2 _ P)). lia.
    + intros ND. specialize (B _ _ o X Y P). rewrite FN in B. specialize (B ND). injection B as ->. reflexivity.
  - intros a b c ->. assert (Na : ~ In DestroyC a) by (intros H; apply N, in_or_app; auto).
    assert (Nb : ~ In DestroyC (b ++ GetC :: c)) by (intros H; apply N, in_or_app; cbn; auto).
    set (w := snd (askedAll a world0)). assert (I : below w) by (apply askedAll_below; [apply below0 | exact Na]).
    destruct (getC w) as [o w1] eqn:G. destruct (below_getC _ _ _ I G) as (I1 & P & _).
    exists o. rewrite gets_at, gets_later. fold w. cbn [asked]. rewrite G. cbn [fst snd]. split; [reflexivity|].
    destruct (askedAll_later (b ++ GetC :: c) w1 I1 Nb) as (_ & _ & _ & B & _).
    assert (X : nth_error (b ++ GetC :: c) (length b) = Some GetC) by (rewrite nth_error_app2, Nat.sub_diag by lia; reflexivity).
    destruct (nth_error (fst (askedAll (b ++ GetC :: c) w1)) (length b)) as [g|] eqn:Y.
    2:{ exfalso. apply nth_error_None in Y. rewrite askedAll_length, app_length in Y. cbn in Y. lia. }
    f_equal. exact (B _ _ o X Y P).
Qed.
Print Assumptions C98_one_of_each_partial.

(** A destroyed controller is given to whoever asks next, and destroying it twice deletes it twice. *)
Theorem C98_controller_comes_back_refuted :
  exists o, gets [GetC; DestroyC; GetC; DestroyC] 0 = Some (Object o) /\
            gets [GetC; DestroyC; GetC; DestroyC] 2 = Some (Object o) /\ gets [GetC; DestroyC; GetC; DestroyC] 3 = Some Freed /\
            gets [GetC; DestroyC; PipeOf] 2 = Some Freed.
Proof. eexists. vm_compute. repeat split; reflexivity. Qed.
Print Assumptions C98_controller_comes_back_refuted.

(** The controller keeps the pipeline it was made with: once that was destroyed, it gives the destroyed
    one, not the one that everybody else gets. *)
Theorem C98_controllers_pipeline_refuted :
  exists o p, o <> p /\ let l := [GetP; GetC; DestroyP; GetP; PipeOf] in
    gets l 0 = Some (Object o) /\ gets l 3 = Some (Object p) /\ gets l 4 = Some (Object o).
Proof. eexists _, _. split; [|vm_compute; repeat split; reflexivity]. discriminate. Qed.
Print Assumptions C98_controllers_pipeline_refuted.

Example C98_instance :
  let l := [GetC; GetP; PipeOf; GetC; DestroyP; GetP; GetP] in
  ~ In DestroyC l /\ fst (askedAll l world0) = [Object 1; Object 0; Object 0; Object 1; Nothing; Object 2; Object 2]%nat.
Proof. split; [cbn; intuition discriminate | vm_compute; reflexivity]. Qed.
