From Verif Require Import Base LifeModel LifeSpec.

(** An end is past its last access to the queue. *)
Definition past (e : endp) : bool := match edpc e with DNull => true | _ => negb (eptr e) end.

(** The invariant, as a boolean so that preservation is a finite case analysis. *)
Definition side_ok (l : life) (e o : endp) : bool :=
  (* an end that is not past keeps the queue alive *)
  implb (negb (past e)) (alive l && eptr e) &&
  implb (eheld e) (negb (past e) && match edpc e with DNo => true | _ => false end) &&
  match edpc e with
  | DTrue => eptr e
  | DFalse => eptr e && past o && negb (conn l)
  | DNull => eptr e
  | _ => true
  end.

Definition inv (l : life) : bool :=
  negb (cpend l) && side_ok l (ew l) (er l) && side_ok l (er l) (ew l) &&
  implb (conn l) (negb (past (ew l)) && negb (past (er l))) &&
  implb (negb (conn l)) (past (ew l) || past (er l)) &&
  implb (negb (alive l)) (past (ew l) && past (er l) && negb (conn l)) &&
  (if alive l then dels l =? 0 else dels l =? 1).

Lemma step_ok l v : inv l = true -> tidy l v = true ->
  match lstep l v with Fine l' => inv l' = true | Disabled => True | _ => False end.
Proof.
  intros HI HT.
  destruct l as [al de co cp [p1 c1 h1 d1] [p2 c2 h2 d2]].
  unfold inv in HI. apply andb_true_iff in HI. destruct HI as (HI & Hd).
  cbn [alive dels ew er] in Hd, HI.
  destruct cp; [cbn in HI; discriminate HI|].
  destruct al; apply Nat.eqb_eq in Hd; subst de;
  destruct d1, p1; cbn in HI; try discriminate HI;
  destruct d2, p2; cbn in HI; try discriminate HI;
  destruct h1; cbn in HI; try discriminate HI;
  destruct h2; cbn in HI; try discriminate HI;
  destruct co; cbn in HI; try discriminate HI; clear HI;
  destruct v as [|[]|[]|[]|[]|[]|[]|[]]; cbn in HT; try discriminate HT; clear HT; cbn;
  try exact I; try reflexivity; try (destruct c1; cbn; [reflexivity|exact I]);
  try (destruct c2; cbn; [reflexivity|exact I]).
Qed.

Lemma run_ok vs : forall l, inv l = true -> tidy_run l vs = true ->
  exists l', lrun l vs = Fine l' /\ inv l' = true.
Proof.
  induction vs as [|v t IH]; intros l HI HT; cbn [lrun].
  - eexists; split; [reflexivity|exact HI].
  - cbn [tidy_run] in HT. pose proof (step_ok l v HI) as HS.
    destruct (lstep l v) as [l'| | |].
    + apply andb_true_iff in HT. destruct HT as [H1 H2]. apply IH; auto.
    + contradiction (HS HT).
    + contradiction (HS HT).
    + apply IH; auto.
Qed.

Lemma life_safe vs : tidy_run connectedQueue vs = true ->
  exists l, lrun connectedQueue vs = Fine l /\ dels l <= 1 /\
    (dels l = 1 -> conn l = false /\
       (eptr (ew l) = true -> edpc (ew l) = DNull) /\ (eptr (er l) = true -> edpc (er l) = DNull)).
Proof.
  intros HT. destruct (run_ok vs connectedQueue eq_refl HT) as (l & HR & HI).
  exists l. split; [exact HR|]. clear HR HT.
  unfold inv in HI. rewrite !andb_true_iff in HI.
  destruct HI as ((((((_ & _) & _) & _) & _) & Hdead) & Hd).
  destruct (alive l); apply Nat.eqb_eq in Hd; rewrite Hd; split; try lia.
  intros _. cbn in Hdead. rewrite !andb_true_iff in Hdead. destruct Hdead as ((H1 & H2) & H3).
  unfold past in *. split; [now apply negb_true_iff in H3|].
  split; intros Hp; rewrite Hp in *; [destruct (edpc (ew l))|destruct (edpc (er l))]; auto; discriminate.
Qed.

(** The states between whole operations. *)
Definition restE (p c : bool) : endp := mkEnd p c false DNo.
Definition rest (wp rp c1 c2 : bool) : life :=
  mkLife (wp || rp) (if wp || rp then 0 else 1) (wp && rp) false (restE wp c1) (restE rp c2).

Lemma lrun_app vs : forall l ws, lrun l (vs ++ ws) =
  match lrun l vs with Fine l' => lrun l' ws | x => x end.
Proof.
  induction vs as [|v t IH]; intros l ws; cbn [app lrun]; [reflexivity|].
  destruct (lstep l v); auto.
Qed.

Lemma call_step c wp rp c1 c2 : exists c1' c2',
  lrun (rest wp rp c1 c2) (expand c) =
  Fine (rest (wp && negb (is_disc Wr c)) (rp && negb (is_disc Rd c)) c1' c2').
Proof.
  destruct c as [[]|[]], wp, rp; cbn; do 2 eexists; try reflexivity.
Qed.

Lemma calls_run cs : forall wp rp c1 c2, exists c1' c2',
  lrun (rest wp rp c1 c2) (flat_map expand cs) =
  Fine (rest (wp && negb (existsb (is_disc Wr) cs)) (rp && negb (existsb (is_disc Rd) cs)) c1' c2').
Proof.
  induction cs as [|c t IH]; intros wp rp c1 c2; cbn [flat_map existsb].
  - exists c1, c2. cbn [lrun negb]. rewrite !andb_true_r. reflexivity.
  - rewrite lrun_app. destruct (call_step c wp rp c1 c2) as (d1 & d2 & E). rewrite E.
    destruct (IH (wp && negb (is_disc Wr c)) (rp && negb (is_disc Rd c)) d1 d2) as (e1 & e2 & E2).
    exists e1, e2. rewrite E2. rewrite !negb_orb, !andb_assoc. reflexivity.
Qed.

Lemma whole_calls cs : exists l, lrun connectedQueue (flat_map expand cs) = Fine l /\
  dels l = (if existsb (is_disc Wr) cs && existsb (is_disc Rd) cs then 1 else 0).
Proof.
  destruct (calls_run cs true true false false) as (c1 & c2 & E).
  eexists. split; [exact E|]. cbn.
  destruct (existsb (is_disc Wr) cs), (existsb (is_disc Rd) cs); reflexivity.
Qed.
