From Coq Require Import Lia.
From Verif Require Import Base DmmModel DmmSpec.
Local Open Scope nat_scope.

(** The states between two happenings. *)
Inductive shape : dmx -> Prop :=
| sNone c f n : shape (mkDm c None None f [] n)
| sPkt c f x n : x < n -> shape (mkDm c (Some x) (Some x) f [x] n)
| sBoth c f x y n : x < y -> y < n -> shape (mkDm c (Some x) (Some y) f [y; x] n).

Ltac eqs := repeat (rewrite ?Nat.eqb_refl in *; cbn in *;
  match goal with
  | |- context[Nat.eqb ?a ?b] => destruct (Nat.eqb_spec a b); try lia
  | |- context[Nat.eq_dec ?a ?b] => destruct (Nat.eq_dec a b); try lia; try congruence
  end; cbn in *).

Lemma letGo_shape d : shape d -> exists d', letGo d = Fine d' /\ live d' = [] /\ shape d'.
Proof.
  intros H; destruct H; unfold letGo, release, same; cbn; eqs;
    (eexists; split; [reflexivity|split; [reflexivity|constructor]]).
Qed.

Lemma reset_shape d : shape d -> exists d', reset d = Fine d' /\ live d' = [] /\ shape d'.
Proof.
  intros H; destruct H; unfold reset, release, same; cbn; eqs;
    (eexists; split; [reflexivity|split; [reflexivity|constructor]]).
Qed.

Lemma fetch_shape r d : shape d ->
  match fetch r d with
  | inl d' => shape d' /\ (buf d' = None -> framing d' = true -> r = Packet true true true Direct)
  | inr o => exists d', o = Fine d' /\ shape d'
  end.
Proof.
  intros H; destruct H; unfold fetch; cbn; [|split; [constructor; auto|discriminate]..].
  destruct r as [|e k f' v]; [eexists; split; [reflexivity|constructor]|].
  destruct e, k, f', v; unfold release; cbn; eqs;
    first [ eexists; split; [reflexivity|constructor]
          | split; [constructor; lia|cbn; congruence] ].
Qed.

Lemma use_shape l d : shape d ->
  (exists d', use l d = Fine d' /\ shape d' /\ (l = true -> live d' = []))
  \/ (use l d = NullRead /\ buf d = None /\ framing d = true).
Proof.
  intros H. destruct (letGo_shape d H) as (d' & E & L & S).
  assert (B : buf d = None \/ exists b, buf d = Some b /\ existsb (Nat.eqb b) (live d) = true).
  { destruct H; cbn; [left; reflexivity|right..]; eexists; (split; [reflexivity|]); rewrite Nat.eqb_refl; reflexivity. }
  unfold use. destruct B as [B|(b & B & X)]; rewrite B.
  - destruct (framing d) eqn:F; [right; auto|left].
    destruct l; eexists; repeat split; eauto; congruence.
  - rewrite X. left. destruct l; eexists; repeat split; eauto; congruence.
Qed.

Lemma letGo_framing d d' : letGo d = Fine d' -> framing d' = framing d.
Proof.
  unfold letGo. destruct (if same (buf d) (pkt d) then _ else _) as [l|]; [|discriminate].
  destruct (release (pkt d) l); [|discriminate]. intros E; injection E as <-; reflexivity.
Qed.

Lemma use_framing l d d' : use l d = Fine d' -> framing d' = framing d.
Proof.
  assert (A : (if l then letGo d else Fine d) = Fine d' -> framing d' = framing d).
  { destruct l; [apply letGo_framing|congruence]. }
  unfold use. destruct (buf d) as [b|].
  - destruct (existsb (Nat.eqb b) (live d)); [exact A|discriminate].
  - destruct (framing d) eqn:F; [discriminate|exact A].
Qed.

Lemma happen_shape h d : shape d ->
  (exists d', happen h d = Fine d' /\ shape d') \/ (happen h d = NullRead /\ emptySplit h).
Proof.
  intros H. destruct h as [r c l|o]; cbn.
  - unfold round. destruct (ctx d); cbn; [|left; eauto].
    pose proof (fetch_shape r d H) as Q. destruct (fetch r d) as [d'|x].
    + destruct Q as (S & N). destruct c; cbn.
      * match goal with |- context[use ?b d'] => destruct (use_shape b d' S) as [(e & E & S' & _)|(E & B & F)] end; [left; eauto|].
        right. split; [exact E|]. rewrite (N B F). now exists l.
      * destruct (letGo_shape d' S) as (e & E & _ & S'). left; eauto.
    + destruct Q as (e & -> & S). left; eauto.
  - unfold setURI. destruct (reset_shape d H) as (e & -> & L & S). left.
    eexists; split; [reflexivity|]. destruct S; cbn in *; try discriminate; constructor.
Qed.

Lemma history_shape hs : forall d, shape d ->
  (exists d', history hs d = Fine d' /\ shape d') \/ (history hs d = NullRead /\ Exists emptySplit hs).
Proof.
  induction hs as [|h r IH]; intros d H; cbn; [left; eauto|].
  destruct (happen_shape h d H) as [(e & -> & S)|(-> & Q)].
  - destruct (IH e S) as [?|(E & X)]; [left; assumption|right; split; [exact E|now right]].
  - right; split; [reflexivity|now left].
Qed.

Lemma shape_tidy d : shape d -> tidy d.
Proof.
  intros H; destruct H; (split; [repeat constructor; cbn; lia|]);
    intros z; unfold pointsTo; cbn; (split; [intros Q|intros [Q|Q]]);
    repeat match goal with
    | Q : _ \/ _ |- _ => destruct Q
    | Q : False |- _ => destruct Q
    | Q : Some _ = Some _ |- _ => injection Q as Q
    | Q : None = Some _ |- _ => discriminate Q
    end; subst; auto.
Qed.
