(** Lemmas about the ring queue: refinement to the bounded FIFO of RingSpec. *)
From Verif Require Import Base RingIface RingModel RingSpec.
From Coq Require Import NArithRing.

Lemma mod_wrap a b m : a < m -> b <= m ->
  (a + b) mod m = if a + b <? m then a + b else a + b - m.
Proof.
  intros Ha Hb. destruct (Nat.ltb_spec (a + b) m) as [H|H].
  - apply Nat.mod_small; exact H.
  - replace (a + b) with ((a + b - m) + 1 * m) at 1 by lia.
    rewrite Nat.mod_add by lia. apply Nat.mod_small. lia.
Qed.

Section Proofs.
Context {V : Type}.
Implicit Types (q : ring V) (s : sys V) (f : fifo V).

(** Slot holding the k-th pending frame. *)
Definition pos q k : nat := (rfront q + k) mod rmax q.

Record RelQ q f : Prop := {
  rq_pos   : 1 <= rmax q;
  rq_front : rfront q < rmax q;
  rq_rear  : rrear q = (rfront q + length (pending f)) mod rmax q;
  rq_slots : length (rslots q) = rmax q;
  rq_cap   : rmax q = cap f + 1;
  rq_len   : length (pending f) <= cap f;
  rq_cont  : forall k, k < length (pending f) ->
               nth_error (rslots q) (pos q k) = nth_error (pending f) k;
  rq_last  : nth_error (rslots q) (pos q (rmax q - 1)) = Some (last f);
  rq_lost  : rlost q = lost f;
  rq_wid   : rwid q = wname f;
  rq_ids   : rids q = rnames f
}.

Definition RelW s f : Prop :=
  if granted f
  then wheld s = Some (rrear (sq s)) /\ length (pending f) < cap f
  else wheld s = None.

Definition RelH s f : Prop :=
  match rheld s, inhand f with
  | None, None => True
  | Some i, Some v => i = rfront (sq s) /\ hd_error (pending f) = Some v
  | _, _ => False
  end.

(** Weaker relation: the reader has a frame in hand or not, content unconstrained. *)
Definition RelH0 s f : Prop :=
  match rheld s, inhand f with
  | None, None => True
  | Some i, Some v => True
  | _, _ => False
  end.

Lemma pos_eq q k : rfront q < rmax q -> k <= rmax q ->
  pos q k = if rfront q + k <? rmax q then rfront q + k else rfront q + k - rmax q.
Proof. intros; unfold pos; apply mod_wrap; assumption. Qed.

Lemma elements_ok q f : RelQ q f -> getElements q = length (pending f).
Proof.
  intros [Hp Hf Hr _ Hc Hl _ _ _ _ _]. unfold getElements.
  rewrite mod_wrap in Hr by lia.
  destruct (Nat.ltb_spec (rfront q + length (pending f)) (rmax q));
  destruct (Nat.ltb_spec (rrear q) (rfront q)); lia.
Qed.

Lemma rear_lt q f : RelQ q f -> rrear q < rmax q.
Proof.
  intros [Hp Hf Hr _ Hc Hl _ _ _ _ _].
  rewrite mod_wrap in Hr by lia.
  destruct (Nat.ltb_spec (rfront q + length (pending f)) (rmax q)); lia.
Qed.

Lemma full_iff q f : RelQ q f ->
  ((rrear q + 1) mod rmax q =? rfront q) = negb (length (pending f) <? cap f).
Proof.
  intros HR. pose proof (rear_lt _ _ HR) as Hrl.
  destruct HR as [Hp Hf Hr _ Hc Hl _ _ _ _ _].
  rewrite mod_wrap in Hr |- * by lia.
  destruct (Nat.ltb_spec (rfront q + length (pending f)) (rmax q));
  destruct (Nat.ltb_spec (rrear q + 1) (rmax q));
  destruct (Nat.ltb_spec (length (pending f)) (cap f)); cbn [negb];
  match goal with |- (?a =? ?b) = _ => destruct (Nat.eqb_spec a b) end; try reflexivity; lia.
Qed.

Lemma empty_iff q f : RelQ q f ->
  (rrear q =? rfront q) = (length (pending f) =? 0).
Proof.
  intros HR. destruct HR as [Hp Hf Hr _ Hc Hl _ _ _ _ _].
  rewrite mod_wrap in Hr by lia.
  destruct (Nat.ltb_spec (rfront q + length (pending f)) (rmax q));
  destruct (Nat.eqb_spec (rrear q) (rfront q));
  destruct (Nat.eqb_spec (length (pending f)) 0); try reflexivity; lia.
Qed.

Lemma max_nz q f : RelQ q f -> (rmax q =? 0) = false.
Proof. intros []. apply Nat.eqb_neq. lia. Qed.

(** The free slot at [rear] is neither pending nor the last one read. *)
Lemma rear_fresh q f k : RelQ q f -> length (pending f) < cap f ->
  k < length (pending f) \/ k = rmax q - 1 -> pos q k <> rrear q.
Proof.
  intros HR Hlt Hk. destruct HR as [Hp Hf Hr _ Hc Hl _ _ _ _ _].
  rewrite Hr, pos_eq, mod_wrap by lia.
  destruct (Nat.ltb_spec (rfront q + k) (rmax q));
  destruct (Nat.ltb_spec (rfront q + length (pending f)) (rmax q)); lia.
Qed.

Lemma relq_scribble q f v : RelQ q f -> length (pending f) < cap f ->
  RelQ (set_slots q (upd (rslots q) (rrear q) v)) f.
Proof.
  intros HR Hlt. pose proof (rear_fresh q f) as HF.
  destruct HR as [Hp Hf Hr Hs Hc Hl Hcont Hlast Hlo Hw Hi].
  assert (HR : RelQ q f) by (constructor; assumption).
  constructor; cbn [set_slots rmax rfront rrear rslots rlost rwid rids]; auto.
  - rewrite upd_length; assumption.
  - intros k Hk. unfold pos; cbn [set_slots rmax rfront rslots].
    rewrite nth_error_upd_neq; [apply Hcont; assumption|].
    apply not_eq_sym. apply (HF k HR Hlt). auto.
  - unfold pos; cbn [set_slots rmax rfront].
    rewrite nth_error_upd_neq; [assumption|].
    apply not_eq_sym. apply (HF _ HR Hlt). auto.
Qed.

Lemma relq_commit q f v : RelQ q f -> length (pending f) < cap f ->
  RelQ (set_rear (set_slots q (upd (rslots q) (rrear q) v)) ((rrear q + 1) mod rmax q))
       (mkFifo (cap f) (pending f ++ [v]) (last f) (lost f) false (inhand f) (wname f) (rnames f)).
Proof.
  intros HR Hlt. pose proof (relq_scribble q f v HR Hlt) as HS.
  pose proof (rear_lt _ _ HR) as Hrl.
  destruct HR as [Hp Hf Hr Hs Hc Hl Hcont Hlast Hlo Hw Hi].
  destruct HS as [_ _ _ Hs' _ _ Hcont' Hlast' _ _ _].
  cbn [set_slots rmax rfront rrear rslots rlost rwid rids] in *.
  constructor; cbn [set_rear set_slots rmax rfront rrear rslots rlost rwid rids
     cap pending last lost wname rnames]; auto.
  - rewrite app_length; cbn [length].
    rewrite Hr. rewrite Nat.add_mod_idemp_l by lia. f_equal. lia.
  - rewrite app_length; cbn [length]. lia.
  - intros k Hk. rewrite app_length in Hk; cbn [length] in Hk.
    unfold pos; cbn [set_rear set_slots rmax rfront].
    destruct (Nat.eq_dec k (length (pending f))) as [->|Hne].
    + rewrite nth_error_app2, Nat.sub_diag by lia. cbn [nth_error].
      rewrite <- Hr. apply nth_error_upd_eq. lia.
    + rewrite nth_error_app1 by lia. apply Hcont'. lia.
Qed.

Lemma relq_remove q f v t : RelQ q f -> pending f = v :: t ->
  RelQ (set_front q ((rfront q + 1) mod rmax q))
       (mkFifo (cap f) t v (lost f) (granted f) None (wname f) (rnames f)).
Proof.
  intros HR Hp0.
  pose proof (rear_lt _ _ HR) as Hrl.
  destruct HR as [Hp Hf Hr Hs Hc Hl Hcont Hlast Hlo Hw Hi].
  rewrite Hp0 in *; cbn [length] in *.
  assert (HM : rmax q <> 0) by lia.
  constructor; cbn [set_front rmax rfront rrear rslots rlost rwid rids
     cap pending last lost wname rnames]; auto.
  - apply Nat.mod_upper_bound; lia.
  - rewrite Nat.add_mod_idemp_l by lia. rewrite Hr. f_equal. lia.
  - lia.
  - intros k Hk. unfold pos; cbn [set_front rmax rfront].
    rewrite Nat.add_mod_idemp_l by lia.
    replace (rfront q + 1 + k) with (rfront q + S k) by lia.
    fold (pos q (S k)). rewrite (Hcont (S k)) by lia. reflexivity.
  - unfold pos; cbn [set_front rmax rfront].
    rewrite Nat.add_mod_idemp_l by lia.
    replace (rfront q + 1 + (rmax q - 1)) with (rfront q + 0 + 1 * rmax q) by lia.
    rewrite Nat.mod_add by lia. apply (Hcont 0). lia.
Qed.

Lemma removelast_length {A} (l : list A) : length (removelast l) = length l - 1.
Proof.
  induction l as [|x [|y t] IH]; cbn [removelast length] in *; auto. rewrite IH. lia.
Qed.

Lemma nth_error_removelast {A} (l : list A) k : k < length l - 1 ->
  nth_error (removelast l) k = nth_error l k.
Proof.
  revert k; induction l as [|x [|y t] IH]; intros k Hk.
  - reflexivity.
  - cbn in Hk; lia.
  - destruct k as [|k]; [reflexivity|].
    cbn [removelast nth_error]. cbn [length] in Hk.
    apply IH. cbn [length]. lia.
Qed.

Lemma relq_flush q f : RelQ q f -> length (pending f) = cap f -> 1 <= cap f ->
  RelQ (flush q)
       (mkFifo (cap f) (removelast (pending f)) (last f) (lost f + 1) true (inhand f) (wname f) (rnames f)).
Proof.
  intros HR Hfull Hcap. pose proof (rear_lt _ _ HR) as Hrl.
  destruct HR as [Hp Hf Hr Hs Hc Hl Hcont Hlast Hlo Hw Hi].
  constructor; cbn [flush doFlush set_rear set_lost rmax rfront rrear rslots rlost rwid rids
     cap pending last lost wname rnames]; auto.
  - rewrite removelast_length. rewrite Hr, Nat.add_mod_idemp_l by lia.
    replace (rfront q + length (pending f) + (rmax q - 1))
       with (rfront q + (length (pending f) - 1) + 1 * rmax q) by lia.
    apply Nat.mod_add; lia.
  - rewrite removelast_length; lia.
  - intros k Hk. rewrite removelast_length in Hk.
    rewrite nth_error_removelast by lia. apply Hcont. lia.
Qed.

(** forceGetRear: at most one flush for capacities of two or more. *)
Lemma force_ok q f fuel : RelQ q f -> 1 <= cap f -> 1 <= fuel ->
  forceGetRear fuel q =
  if length (pending f) <? cap f then Ok (q, rrear q)
  else Ok (flush q, rrear (flush q)).
Proof.
  intros HR Hc Hfu. destruct fuel as [|n]; [lia|].
  cbn [forceGetRear]. unfold getRear. rewrite (max_nz _ _ HR), (full_iff _ _ HR).
  destruct (Nat.ltb_spec (length (pending f)) (cap f)) as [Hlt|Hge]; cbn [negb]; [reflexivity|].
  assert (Hfull : length (pending f) = cap f) by (destruct HR; lia).
  pose proof (relq_flush q f HR Hfull Hc) as HR'.
  assert (Hnf : getRear (flush q) = Ok (Some (rrear (flush q)))).
  { unfold getRear. rewrite (max_nz _ _ HR'), (full_iff _ _ HR').
    cbn [pending cap]. rewrite removelast_length.
    destruct (Nat.ltb_spec (length (pending f) - 1) (cap f)); cbn [negb]; [reflexivity|lia]. }
  destruct n as [|n]; cbn [forceGetRear]; rewrite Hnf; reflexivity.
Qed.

Definition Rel0 s f : Prop := RelQ (sq s) f /\ RelW s f /\ RelH0 s f.
Definition Rel s f : Prop := RelQ (sq s) f /\ RelW s f /\ RelH s f.

Definition is_force (o : request V) := match o with Force => true | _ => false end.
Definition is_readheld (o : request V) := match o with ReadHeld => true | _ => false end.

Ltac dspec f := destruct f as [fc fp fl flo fg fi fw fr].

(** Weak simulation: everything but reading through a held pointer. *)
Lemma step_weak s f o : Rel0 s f -> 1 <= cap f \/ is_force o = false ->
  is_readheld o = false ->
  exists s' x, step s o = Some (s', x) /\
    x = snd (spec_step f o) /\
    Rel0 s' (fst (spec_step f o)).
Proof.
  intros (HQ & HW & HH) Hc Hnr.
  destruct o as [| |v|v| | | | | |]; cbn [step is_force is_readheld] in *;
    try discriminate.
  - (* Request *)
    unfold getRear. rewrite (max_nz _ _ HQ), (full_iff _ _ HQ).
    dspec f; cbn [pending cap spec_step fst snd] in *.
    destruct (Nat.ltb_spec (length fp) fc) as [Hlt|Hge]; cbn [negb];
      (eexists; eexists; split; [reflexivity|]; split; [reflexivity|]);
      (split; [|split]); cbn [sq]; try exact HH;
      try (destruct HQ; constructor; assumption);
      unfold RelW; cbn [granted wheld sq pending cap]; auto.
  - (* Force *)
    destruct Hc as [Hc|Hc]; [|discriminate].
    rewrite (force_ok _ _ _ HQ Hc) by (destruct HQ; lia).
    pose proof (relq_flush (sq s) f HQ) as HFl.
    dspec f; cbn [pending cap spec_step fst snd last lost wname rnames inhand] in *.
    destruct (Nat.ltb_spec (length fp) fc) as [Hlt|Hge];
      (eexists; eexists; split; [reflexivity|]; split; [reflexivity|]);
      (split; [|split]); cbn [sq fst]; try exact HH.
    + destruct HQ; constructor; assumption.
    + unfold RelW; cbn; auto.
    + apply HFl; [destruct HQ; cbn in *; lia|lia].
    + unfold RelW; cbn. split; auto. rewrite removelast_length.
      destruct HQ; cbn in *; lia.
  - (* Scribble *)
    pose proof (relq_scribble (sq s) f v HQ) as HSc.
    unfold RelW in HW. destruct (granted f) eqn:Eg.
    + destruct HW as [HW Hlt]. rewrite HW.
      assert (Hsp : spec_step f (Scribble v) = (f, Nothing)) by (dspec f; reflexivity).
      rewrite Hsp.
      eexists; eexists; split; [reflexivity|]; split; [reflexivity|].
      split; [|split]; cbn [sq fst].
      * apply HSc; assumption.
      * unfold RelW; rewrite Eg; cbn. auto.
      * exact HH.
    + rewrite HW.
      assert (Hsp : spec_step f (Scribble v) = (f, Nothing)) by (dspec f; reflexivity).
      rewrite Hsp.
      eexists; eexists; split; [reflexivity|]; split; [reflexivity|].
      split; [|split]; auto. unfold RelW; cbn [fst]; rewrite Eg; auto.
  - (* Commit *)
    pose proof (relq_commit (sq s) f v HQ) as HC.
    pose proof (relq_scribble (sq s) f v HQ) as HSc.
    unfold RelW in HW. destruct (granted f) eqn:Eg.
    + destruct HW as [HW Hlt]. rewrite HW.
      unfold addFrame. cbn [set_slots rmax rfront rrear rids].
      rewrite (max_nz _ _ HQ), (full_iff _ _ HQ).
      destruct (Nat.ltb_spec (length (pending f)) (cap f)) as [_|Hge]; [|lia].
      cbn [negb].
      eexists; eexists; split; [reflexivity|].
      dspec f; cbn in Eg; subst fg; cbn [spec_step fst snd pending cap] in *.
      split; [cbn; f_equal; destruct HQ; assumption|].
      split; [|split]; cbn [sq fst].
      * apply HC; assumption.
      * unfold RelW; cbn; auto.
      * exact HH.
    + rewrite HW.
      eexists; eexists; split; [reflexivity|].
      dspec f; cbn in Eg; subst fg; cbn [spec_step fst snd] in *.
      split; [reflexivity|]. split; [|split]; auto.
  - (* Peek *)
    unfold getFront. rewrite (empty_iff _ _ HQ).
    destruct (pending f) as [|v t] eqn:Ep; cbn [length Nat.eqb].
    + eexists; eexists; split; [reflexivity|].
      dspec f; cbn in Ep; subst fp. cbn [spec_step fst snd].
      split; [reflexivity|]. split; [|split]; cbn [sq fst].
      * destruct HQ; constructor; assumption.
      * exact HW.
      * exact I.
    + assert (Hread : nth_error (rslots (sq s)) (rfront (sq s)) = Some v).
      { destruct HQ as [Hp Hf _ _ _ _ Hcont _ _ _ _].
        specialize (Hcont 0). unfold pos in Hcont.
        rewrite Nat.add_0_r, (Nat.mod_small _ _ Hf) in Hcont.
        rewrite Hcont, Ep; [reflexivity|rewrite Ep; cbn; lia]. }
      unfold slot_read; rewrite Hread.
      eexists; eexists; split; [reflexivity|].
      dspec f; cbn in Ep; subst fp. cbn [spec_step fst snd].
      split; [reflexivity|]. split; [|split]; cbn [sq fst].
      * destruct HQ; constructor; assumption.
      * exact HW.
      * exact I.
  - (* Remove *)
    unfold removeFrame. rewrite (empty_iff _ _ HQ), (max_nz _ _ HQ).
    pose proof (relq_remove (sq s) f) as HRm.
    destruct (pending f) as [|v t] eqn:Ep; cbn [length Nat.eqb].
    + eexists; eexists; split; [reflexivity|].
      dspec f; cbn in Ep; subst fp. cbn [spec_step fst snd].
      split; [reflexivity|]. split; [|split]; cbn [sq fst].
      * destruct HQ; constructor; assumption.
      * exact HW.
      * exact I.
    + specialize (HRm v t HQ eq_refl).
      eexists; eexists; split; [reflexivity|].
      dspec f; cbn in Ep; subst fp. cbn [spec_step fst snd] in *.
      split; [cbn; f_equal; destruct HQ; assumption|].
      split; [|split]; cbn [sq fst].
      * exact HRm.
      * unfold RelW in *; cbn in *. destruct fg; auto.
        destruct HW as [HW Hlt]; split; auto. lia.
      * exact I.
  - (* Last *)
    unfold forceGetFront. rewrite (max_nz _ _ HQ). unfold slot_read.
    pose proof (rq_last _ _ HQ) as HL. unfold pos in HL. rewrite HL.
    eexists; eexists; split; [reflexivity|].
    dspec f; cbn [spec_step fst snd]. split; [reflexivity|].
    split; [|split]; auto.
  - (* Count *)
    rewrite (elements_ok _ _ HQ).
    eexists; eexists; split; [reflexivity|].
    dspec f; cbn [spec_step fst snd]. split; [reflexivity|].
    split; [|split]; auto.
  - (* Lost *)
    eexists; eexists; split; [reflexivity|].
    rewrite (rq_lost _ _ HQ).
    dspec f; cbn [spec_step fst snd]. split; [reflexivity|].
    split; [|split]; auto.
Qed.

Lemma relh_relh0 s f : RelH s f -> RelH0 s f.
Proof. unfold RelH, RelH0. destruct (rheld s), (inhand f); auto. Qed.

Lemma rel_rel0 s f : Rel s f -> Rel0 s f.
Proof. intros (A & B & C); split; [|split]; auto. apply relh_relh0; auto. Qed.

Lemma step_frame s o s' x : step s o = Some (s', x) ->
  match o with Peek | Remove => True
  | _ => rheld s' = rheld s /\ rfront (sq s') = rfront (sq s) end.
Proof.
  assert (Hforce : forall n q q' i, forceGetRear n q = Ok (q', i) -> rfront q' = rfront q).
  { induction n as [|n IH]; intros q q' i; cbn [forceGetRear];
    destruct (getRear q) as [[j|]| |]; try discriminate;
    try (intros E; inversion E; subst; reflexivity).
    intros E. apply IH in E. exact E. }
  destruct o as [| |v|v| | | | | |]; cbn [step]; auto.
  - destruct (getRear (sq s)); intros E; inversion E; subst; auto.
  - destruct (forceGetRear _ _) as [[q' i]| |] eqn:Ef; intros E; inversion E; subst; cbn.
    split; auto. eapply Hforce; eassumption.
  - destruct (wheld s); intros E; inversion E; subst; auto.
  - destruct (wheld s).
    + unfold addFrame. destruct (_ =? 0); [discriminate|].
      destruct (_ =? _); intros E; inversion E; subst; auto.
    + intros E; inversion E; subst; auto.
  - destruct (rheld s) eqn:Er.
    + destruct (slot_read _ _); intros E; inversion E; subst; auto.
    + intros E; inversion E; subst; auto.
  - destruct (forceGetFront _); try discriminate.
    destruct (slot_read _ _); intros E; inversion E; subst; auto.
  - intros E; inversion E; subst; auto.
  - intros E; inversion E; subst; auto.
Qed.

(** Full simulation: needs three slots (two pending frames) when writes may be forced. *)
Lemma step_strong s f o : Rel s f -> 2 <= cap f \/ is_force o = false ->
  exists s' x, step s o = Some (s', x) /\
    x = snd (spec_step f o) /\
    Rel s' (fst (spec_step f o)).
Proof.
  intros HR Hc.
  pose proof HR as (HQ & HW & HH).
  destruct (is_readheld o) eqn:Erh.
  - destruct o; try discriminate Erh. cbn [step].
    unfold RelH in HH.
    destruct (rheld s) as [i|] eqn:Er, (inhand f) as [v|] eqn:Ei; try contradiction.
    + destruct HH as [-> Hhd].
      assert (Hread : nth_error (rslots (sq s)) (rfront (sq s)) = Some v).
      { destruct HQ as [Hp Hf _ _ _ _ Hcont _ _ _ _].
        destruct (pending f) as [|v0 t] eqn:Ep; cbn in Hhd; inversion Hhd; subst v0.
        specialize (Hcont 0). unfold pos in Hcont.
        rewrite Nat.add_0_r, (Nat.mod_small _ _ Hf) in Hcont.
        rewrite Hcont; [reflexivity|cbn; lia]. }
      unfold slot_read; rewrite Hread.
      eexists; eexists; split; [reflexivity|].
      dspec f; cbn in *; subst fi. split; [reflexivity|].
      split; [|split]; auto. unfold RelH; rewrite Er; cbn. auto.
    + eexists; eexists; split; [reflexivity|].
      dspec f; cbn in *; subst fi. split; [reflexivity|].
      split; [|split]; auto. unfold RelH; rewrite Er; cbn. auto.
  - destruct (step_weak s f o (rel_rel0 _ _ HR)) as (s' & x & Hst & Ho & HR'); auto.
    { destruct Hc as [Hc|Hc]; [left; lia|auto]. }
    exists s', x; split; [exact Hst|]; split; [exact Ho|].
    destruct HR' as (HQ' & HW' & HH'); split; [exact HQ'|]; split; [exact HW'|].
    pose proof (step_frame _ _ _ _ Hst) as Hfr.
    unfold RelH in *.
    destruct o as [| |v|v| | | | | |]; cbn [is_readheld] in Erh; try discriminate Erh.
    + destruct Hfr as [-> ->]. dspec f; cbn in *. exact HH.
    + destruct Hfr as [-> ->]. destruct Hc as [Hc|Hc]; [|discriminate].
      dspec f; cbn [spec_step fst snd pending inhand cap] in *.
      destruct (Nat.ltb_spec (length fp) fc); cbn [fst pending inhand] in *; [exact HH|].
      destruct (rheld s), fi; auto. destruct HH as [-> Hhd]; split; auto.
      destruct fp as [|a [|b t]]; cbn in *; auto; lia.
    + destruct Hfr as [-> ->]. dspec f; cbn in *. exact HH.
    + destruct Hfr as [-> ->]. dspec f; cbn in *.
      destruct fg; cbn in *; [|exact HH].
      destruct (rheld s), fi; auto. destruct HH as [-> Hhd]; split; auto.
      destruct fp; cbn in *; auto; discriminate.
    + clear Hfr HH HH'. cbn [step] in *. unfold getFront in Hst.
      rewrite (empty_iff _ _ HQ) in Hst.
      dspec f; cbn [spec_step fst snd pending inhand] in *.
      destruct fp as [|a t]; cbn [length Nat.eqb hd_error] in *.
      * inversion Hst; subst; cbn; auto.
      * destruct (slot_read (sq s) (rfront (sq s))) eqn:Esr; inversion Hst; subst; cbn; auto.
    + clear Hfr HH HH'. cbn [step] in *.
      assert (Hn : rheld s' = None).
      { destruct (removeFrame (sq s)) as [[q' w]| |]; inversion Hst; subst; reflexivity. }
      rewrite Hn. dspec f; cbn [spec_step]. destruct fp; cbn; auto.
    + destruct Hfr as [-> ->]. dspec f; cbn in *. exact HH.
    + destruct Hfr as [-> ->]. dspec f; cbn in *. exact HH.
    + destruct Hfr as [-> ->]. dspec f; cbn in *. exact HH.
Qed.

Lemma spec_step_cap f r : cap (fst (spec_step f r)) = cap f.
Proof.
  dspec f; destruct r; cbn [spec_step]; try reflexivity.
  - destruct (length fp <? fc); reflexivity.
  - destruct fg; reflexivity.
  - destruct fp; reflexivity.
Qed.

Lemma run_strong os : forall s f, Rel s f ->
  2 <= cap f \/ forallb (fun o => negb (is_force o)) os = true ->
  exists s' xs, run s os = Some (s', xs) /\
    xs = snd (spec_run f os) /\
    Rel s' (fst (spec_run f os)).
Proof.
  induction os as [|o t IH]; intros s f HR Hc.
  - exists s, []. cbn. auto.
  - assert (Ho : 2 <= cap f \/ is_force o = false).
    { destruct Hc as [Hc|Hc]; [auto|right]. cbn in Hc.
      apply andb_true_iff in Hc as [Hc _]. destruct (is_force o); [discriminate|reflexivity]. }
    destruct (step_strong s f o HR Ho) as (s1 & x & Hst & Hx & HR1).
    destruct (IH s1 _ HR1) as (s2 & xs & Hrun & Hxs & HR2).
    { rewrite spec_step_cap. destruct Hc as [Hc|Hc]; [auto|right]. cbn in Hc.
      apply andb_true_iff in Hc as [_ Hc]. exact Hc. }
    exists s2, (x :: xs). cbn [run spec_run]. rewrite Hst, Hrun.
    destruct (spec_step f o) as [f1 a1]; cbn [fst snd] in *.
    destruct (spec_run f1 t) as [f2 l2]; cbn [fst snd] in *.
    split; [reflexivity|]. split; [|exact HR2]. subst; reflexivity.
Qed.

Lemma run_weak os : forall s f, Rel0 s f -> 1 <= cap f ->
  forallb (fun o => negb (is_readheld o)) os = true ->
  exists s' xs, run s os = Some (s', xs) /\
    xs = snd (spec_run f os) /\
    Rel0 s' (fst (spec_run f os)).
Proof.
  induction os as [|o t IH]; intros s f HR Hc Hrh.
  - exists s, []. cbn. auto.
  - cbn in Hrh. apply andb_true_iff in Hrh as [Hrh Hrt].
    destruct (step_weak s f o HR) as (s1 & x & Hst & Hx & HR1); auto.
    { destruct (is_readheld o); [discriminate|reflexivity]. }
    destruct (IH s1 _ HR1) as (s2 & xs & Hrun & Hxs & HR2); auto.
    { rewrite spec_step_cap. exact Hc. }
    exists s2, (x :: xs). cbn [run spec_run]. rewrite Hst, Hrun.
    destruct (spec_step f o) as [f1 a1]; cbn [fst snd] in *.
    destruct (spec_run f1 t) as [f2 l2]; cbn [fst snd] in *.
    split; [reflexivity|]. split; [|exact HR2]. subst; reflexivity.
Qed.

Lemma nth_error_repeat (A : Type) (x : A) n k : k < n -> nth_error (repeat x n) k = Some x.
Proof. revert k; induction n as [|n IH]; intros [|k] H; cbn; try lia; auto. apply IH; lia. Qed.

Lemma init_rel n w ids (b : V) : 1 <= n ->
  Rel (init n w ids b) (spec_init (Nat.min n MAX_FRAMES - 1) w ids b).
Proof.
  intros H1. unfold init, newRing.
  replace (if MAX_FRAMES <? n then MAX_FRAMES else n) with (Nat.min n MAX_FRAMES)
    by (destruct (Nat.ltb_spec MAX_FRAMES n); lia).
  assert (H2 : 1 <= Nat.min n MAX_FRAMES) by (unfold MAX_FRAMES; lia).
  remember (Nat.min n MAX_FRAMES) as m eqn:Em; clear Em.
  split; [|split]; cbn; auto.
  constructor; cbn [rmax rfront rrear rslots rlost rwid rids cap pending last lost wname rnames
      spec_init length]; auto; try lia.
  - rewrite Nat.mod_small by lia. reflexivity.
  - apply repeat_length.
  - unfold pos; cbn [rmax rfront]. rewrite Nat.mod_small by lia.
    apply nth_error_repeat. lia.
Qed.

(** Every state reached by a history is related to a specification state. *)
Lemma reach_rel0 n w ids (b : V) os s xs :
  2 <= n \/ (1 <= n /\ forallb (fun o => negb (is_force o)) os = true) ->
  run (init n w ids b) os = Some (s, xs) ->
  exists f, RelQ (sq s) f /\ RelW s f /\ cap f = Nat.min n MAX_FRAMES - 1.
Proof.
  intros Hn.
  assert (H1 : 1 <= n) by lia.
  pose proof (init_rel n w ids b H1) as HI.
  assert (Hg : forall os s0 f0 s xs, RelQ (sq s0) f0 -> RelW s0 f0 ->
      1 <= cap f0 \/ forallb (fun o => negb (is_force o)) os = true ->
      run s0 os = Some (s, xs) ->
      exists f, RelQ (sq s) f /\ RelW s f /\ cap f = cap f0).
  { clear. induction os as [|o t IH]; intros s0 f0 s xs HQ HW Hc Hr.
    - cbn in Hr; inversion Hr; subst. exists f0; auto.
    - cbn [run] in Hr. destruct (step s0 o) as [[s1 x]|] eqn:Es; [|discriminate].
      destruct (run s1 t) as [[s2 xs2]|] eqn:Er; [|discriminate]. inversion Hr; subst.
      destruct (is_readheld o) eqn:Erh.
      + destruct o; try discriminate. cbn [step] in Es.
        assert (s1 = s0) as ->.
        { destruct (rheld s0); [destruct (slot_read _ _)|]; inversion Es; reflexivity. }
        eapply IH; eauto.
      + set (f1 := mkFifo (cap f0) (pending f0) (last f0) (lost f0) (granted f0)
              (match rheld s0 with Some _ => Some (last f0) | None => None end)
              (wname f0) (rnames f0)).
        assert (HR : Rel0 s0 f1).
        { split; [|split].
          - destruct HQ; constructor; assumption.
          - exact HW.
          - unfold RelH0, f1; cbn. destruct (rheld s0); exact I. }
        destruct (step_weak s0 f1 o HR) as (s1' & x' & Hst & _ & HR1); auto.
        { destruct Hc as [Hc|Hc]; [left; exact Hc|right].
          cbn in Hc. apply andb_true_iff in Hc as [Hc _].
          destruct (is_force o); [discriminate|reflexivity]. }
        rewrite Es in Hst; inversion Hst; subst s1' x'.
        destruct HR1 as (HQ1 & HW1 & _).
        destruct (IH s1 _ s xs2 HQ1 HW1) as (f & A & B & C); auto.
        { rewrite spec_step_cap. destruct Hc as [Hc|Hc]; [left; exact Hc|right].
          cbn in Hc. apply andb_true_iff in Hc as [_ Hc]. exact Hc. }
        exists f; split; [exact A|]; split; [exact B|]. rewrite C, spec_step_cap. reflexivity. }
  intros Hrun. destruct HI as (HQ & HW & _).
  destruct (Hg os _ _ s xs HQ HW) as (f & A & B & C); auto.
  - cbn. destruct Hn as [Hn|[_ Hn]]; [left|right; exact Hn]. unfold MAX_FRAMES; lia.
  - exists f; auto.
Qed.

Lemma offered_slot_lemma n w ids (b : V) os s xs i :
  2 <= n \/ (1 <= n /\ forallb (fun o => negb (is_force o)) os = true) ->
  run (init n w ids b) os = Some (s, xs) ->
  wheld s = Some i ->
  i < rmax (sq s) /\
  (forall k, k < getElements (sq s) -> (rfront (sq s) + k) mod rmax (sq s) <> i) /\
  (rfront (sq s) + (rmax (sq s) - 1)) mod rmax (sq s) <> i.
Proof.
  intros Hn Hrun Hw. destruct (reach_rel0 _ _ _ _ _ _ _ Hn Hrun) as (f & HQ & HW & Hc).
  unfold RelW in HW. rewrite Hw in HW. destruct (granted f); [|discriminate].
  destruct HW as [E Hlt]; inversion E; subst i. split; [eapply rear_lt; eassumption|].
  split.
  - intros k Hk. rewrite (elements_ok _ _ HQ) in Hk. apply (rear_fresh _ _ k HQ Hlt). auto.
  - apply (rear_fresh _ _ _ HQ Hlt). auto.
Qed.

Lemma held_slot_lemma n w ids (b : V) os s xs i j :
  3 <= n \/ (1 <= n /\ forallb (fun o => negb (is_force o)) os = true) ->
  run (init n w ids b) os = Some (s, xs) ->
  wheld s = Some i -> rheld s = Some j -> i <> j.
Proof.
  intros Hn Hrun Hw Hr.
  assert (H1 : 1 <= n) by lia.
  destruct (run_strong os (init n w ids b) _ (init_rel n w ids b H1)) as (s' & xs' & Hrun' & _ & HR).
  { destruct Hn as [Hn|[_ Hn]]; [left; cbn; unfold MAX_FRAMES; lia|right; exact Hn]. }
  rewrite Hrun in Hrun'; inversion Hrun'; subst s' xs'.
  destruct HR as (HQ & HW & HH). set (f := fst _) in *.
  unfold RelH in HH. rewrite Hr in HH. destruct (inhand f) as [v|]; [|contradiction].
  destruct HH as [-> Hhd].
  unfold RelW in HW. rewrite Hw in HW. destruct (granted f); [|discriminate].
  destruct HW as [E Hlt]; inversion E; subst i.
  assert (Hne : 0 < length (pending f)) by (destruct (pending f); [discriminate|cbn; lia]).
  pose proof (rear_fresh _ _ 0 HQ Hlt (or_introl Hne)) as HF.
  unfold pos in HF. rewrite Nat.add_0_r, Nat.mod_small in HF by (destruct HQ; assumption).
  auto.
Qed.

Lemma elements_bound n w ids (b : V) os s xs :
  2 <= n \/ (1 <= n /\ forallb (fun o => negb (is_force o)) os = true) ->
  run (init n w ids b) os = Some (s, xs) ->
  rmax (sq s) = Nat.min n MAX_FRAMES /\ getElements (sq s) < rmax (sq s).
Proof.
  intros Hn Hrun. destruct (reach_rel0 _ _ _ _ _ _ _ Hn Hrun) as (f & HQ & _ & Hc).
  rewrite (elements_ok _ _ HQ). destruct HQ. unfold MAX_FRAMES in *. split; lia.
Qed.

End Proofs.

(** The binary32 comparison of [isFull], for every queue size the constructor
    can produce. *)
Lemma f32_facts (e m : N) : (0 < e -> e < m ->
  let mant := fst (f32_quot e m) in let P := 2 ^ snd (f32_quot e m) in
  2 ^ 23 * m <= e * P /\ e * P < 2 ^ 24 * m /\
  2 * e * P <= 2 * m * mant + m /\ 2 * m * mant <= 2 * e * P + m)%N.
Proof.
  intros He Hm. cbv zeta. unfold f32_quot.
  set (le := N.log2 e). set (lm := N.log2 m).
  assert (Hle : (le <= lm)%N) by (apply N.log2_le_mono; lia).
  pose proof (N.log2_spec e He) as [He1 He2]. fold le in He1, He2.
  assert (Hm0 : (0 < m)%N) by lia.
  pose proof (N.log2_spec m Hm0) as [Hm1 Hm2]. fold lm in Hm1, Hm2.
  set (sh := if (e * 2 ^ (23 + lm - le) <? m * 2 ^ 23)%N then (23 + lm - le + 1)%N else (23 + lm - le)%N).
  assert (HP : (2 ^ 23 * m <= e * 2 ^ sh /\ e * 2 ^ sh < 2 ^ 24 * m)%N).
  { assert (E0 : (2 ^ (23 + lm - le) * 2 ^ le = 2 ^ 23 * 2 ^ lm)%N).
    { rewrite <- !N.pow_add_r. f_equal. lia. }
    rewrite N.pow_succ_r' in He2, Hm2.
    set (X := (2 ^ (23 + lm - le))%N) in *. 
    assert (HX : (e * X < 2 ^ 24 * m)%N).
    { apply N.lt_le_trans with (2 * 2 ^ le * X)%N.
      - assert (HXp : (0 < X)%N) by (unfold X; apply N.neq_0_lt_0, N.pow_nonzero; discriminate).
        apply (proj1 (N.mul_lt_mono_pos_r X _ _ HXp)). exact He2.
      - replace (2 * 2 ^ le * X)%N with (2 * (X * 2 ^ le))%N by ring. rewrite E0.
        change (2^24)%N with (2 * 2 ^ 23)%N.
        rewrite N.mul_assoc. apply N.mul_le_mono_l; exact Hm1. }
    assert (HX2 : (2 ^ 22 * m <= e * X)%N).
    { apply N.le_trans with (2 ^ le * X)%N; [|apply N.mul_le_mono_r; exact He1].
      rewrite (N.mul_comm (2 ^ le)), E0.
      apply N.le_trans with (2 ^ 22 * (2 * 2 ^ lm))%N; [apply N.mul_le_mono_l; lia|].
      change (2^23)%N with (2^22 * 2)%N. lia. }
    unfold sh. destruct (N.ltb_spec (e * X) (m * 2 ^ 23)) as [H|H].
    - rewrite N.pow_add_r. fold X. change (2 ^ 1)%N with 2%N.
      rewrite N.mul_assoc.
      change (2 ^ 22)%N with 4194304%N in *. change (2 ^ 23)%N with 8388608%N in *.
      change (2 ^ 24)%N with 16777216%N in *. lia.
    - fold X. lia. }
  cbv zeta. fold le lm. fold sh. cbn [fst snd].
  split; [apply HP|]. split; [apply HP|].
  pose proof (N.div_mod (e * 2 ^ sh) m ltac:(lia)) as HD.
  pose proof (N.mod_lt (e * 2 ^ sh) m ltac:(lia)) as HL.
  rewrite <- N.mul_assoc.
  set (n := (e * 2 ^ sh)%N) in *. set (q := (n / m)%N) in *. set (r := (n mod m)%N) in *.
  clearbody n q r. clear - HD HL.
  destruct (N.ltb_spec m (2 * r)) as [A|A]; cbn [orb].
  - split; nia.
  - destruct (N.eqb_spec (2 * r) m) as [B|B]; cbn [andb];
    [destruct (N.odd q)|]; split; nia.
Qed.

Lemma f32_ge_threshold (e m : N) : (0 < e -> e < m -> m <= 250 ->
  (FULL_THRESHOLD_MANT * 2 ^ snd (f32_quot e m) <=? fst (f32_quot e m) * 2 ^ 53) = (9 * m <? 10 * e))%N.
Proof.
  intros He Hm Hmax.
  destruct (f32_facts e m He Hm) as (H1 & H2 & H3 & H4).
  set (P := (2 ^ snd (f32_quot e m))%N) in *.
  assert (HPpow : P = (2 ^ snd (f32_quot e m))%N) by reflexivity.
  set (mant := fst (f32_quot e m)) in *.
  clearbody mant.
  unfold FULL_THRESHOLD_MANT.
  change (2 ^ 53)%N with 9007199254740992%N.
  change (2 ^ 23)%N with 8388608%N in *. change (2 ^ 24)%N with 16777216%N in *.
  assert (HP : (8388608 < P)%N) by nia.
  assert (HmP : (m * P <= 250 * P)%N) by (apply N.mul_le_mono_r; exact Hmax).
  replace (2 * m * mant)%N with (2 * (m * mant))%N in * by ring.
  replace (2 * e * P)%N with (2 * (e * P))%N in * by ring.
  assert (Hm0 : (0 < m)%N) by lia.
  destruct (N.ltb_spec (9 * m) (10 * e)) as [H|H]; apply N.leb_le || apply N.leb_gt.
  - assert (HA : (9 * (m * P) + P <= 10 * (e * P))%N).
    { replace (9 * (m * P) + P)%N with ((9 * m + 1) * P)%N by ring.
      replace (10 * (e * P))%N with (10 * e * P)%N by ring.
      apply N.mul_le_mono_r. lia. }
    apply (N.mul_le_mono_pos_l _ _ m Hm0).
    replace (m * (8106479329266893 * P))%N with (8106479329266893 * (m * P))%N by ring.
    replace (m * (mant * 9007199254740992))%N with (9007199254740992 * (m * mant))%N by ring.
    set (mP := (m * P)%N) in *. set (eP := (e * P)%N) in *. set (mm := (m * mant)%N) in *.
    clearbody mP eP mm. lia.
  - apply (N.mul_lt_mono_pos_l m _ _ Hm0).
    replace (m * (8106479329266893 * P))%N with (8106479329266893 * (m * P))%N by ring.
    replace (m * (mant * 9007199254740992))%N with (9007199254740992 * (m * mant))%N by ring.
    destruct (N.eq_dec (10 * e) (9 * m)) as [E|E].
    + (* exactly nine tenths: the quotient is the binary32 number below 0.9 *)
      assert (HA : (10 * (e * P) = 9 * (m * P))%N).
      { replace (10 * (e * P))%N with (10 * e * P)%N by ring. rewrite E. ring. }
      assert (HP24 : P = 16777216%N).
      { assert (Hl : (8388608 * 10 <= 9 * P)%N) by nia.
        assert (Hu : (9 * P < 16777216 * 10)%N) by nia.
        rewrite HPpow in *. set (k := snd (f32_quot e m)) in *. clearbody k.
        destruct (N.lt_trichotomy k 24) as [Hk|[Hk|Hk]].
        - exfalso. assert (Hk2 : (2 ^ k <= 2 ^ 23)%N) by (apply N.pow_le_mono_r; lia).
          change (2 ^ 23)%N with 8388608%N in Hk2. lia.
        - rewrite Hk. reflexivity.
        - exfalso. assert (Hk2 : (2 ^ 25 <= 2 ^ k)%N) by (apply N.pow_le_mono_r; lia).
          change (2 ^ 25)%N with 33554432%N in Hk2. lia. }
      clear HPpow. rewrite HP24 in *.
      assert (HB : (mant <= 15099494)%N).
      { destruct (N.le_gt_cases mant 15099494) as [HB|HB]; [exact HB|exfalso].
        assert (HC : (m * 15099495 <= m * mant)%N) by (apply N.mul_le_mono_l; lia).
 set (mm := (m * mant)%N) in *. clearbody mm. clear - E H4 HC Hm0. lia. }
      assert (HC : (m * mant <= m * 15099494)%N) by (apply N.mul_le_mono_l; exact HB).
      clear - HC Hm0.
      lia.
    + assert (HA : (10 * (e * P) + P <= 9 * (m * P))%N).
      { replace (9 * (m * P))%N with (9 * m * P)%N by ring.
        replace (10 * (e * P) + P)%N with ((10 * e + 1) * P)%N by ring.
        apply N.mul_le_mono_r. lia. }
      clear HPpow.
      set (mP := (m * P)%N) in *. set (eP := (e * P)%N) in *. set (mm := (m * mant)%N) in *.
      clearbody mP eP mm. clear - H3 H4 HA HmP HP Hm0 Hmax.  lia.
Qed.

Lemma full_threshold {V} (q : ring V) :
  1 <= rmax q <= 250 -> getElements q < rmax q ->
  isFull q = (9 * rmax q <? 10 * getElements q).
Proof.
  intros Hm He. unfold isFull. destruct (Nat.eqb_spec (getElements q) 0) as [E|E].
  - rewrite E. symmetry. apply Nat.ltb_ge. lia.
  - pose proof (f32_ge_threshold (N.of_nat (getElements q)) (N.of_nat (rmax q))) as H.
    destruct (f32_quot _ _) as [mant sh]. cbn [fst snd] in H. rewrite H by lia.
    destruct (Nat.ltb_spec (9 * rmax q) (10 * getElements q));
    [apply N.ltb_lt|apply N.ltb_ge]; lia.
Qed.

(** Facts about the specification alone, used for the corollaries. *)
Section SpecFacts.
Context {V : Type}.

(** What a history published, and what the reader finished reading. *)
Lemma force_diverges (q : ring V) : rmax q = 1 -> rrear q = 0 -> rfront q = 0 ->
  forall fuel, forceGetRear fuel q = NoReturn.
Proof.
  intros Hm Hr Hf fuel. revert q Hm Hr Hf. induction fuel as [|n IH]; intros q Hm Hr Hf;
  cbn [forceGetRear]; unfold getRear; rewrite Hm, Hr, Hf; cbn; auto.
  apply IH; cbn; auto. rewrite Hm. apply Nat.mod_1_r.
Qed.

Definition sis_force (o : request V) := match o with Force => true | _ => false end.

Definition HandOk (f : fifo V) : Prop :=
  match inhand f with Some v => hd_error (pending f) = Some v | None => True end.

Lemma subseq_refl (l : list V) : subseq l l.
Proof. induction l; constructor; auto. Qed.

Lemma subseq_app (a b c d : list V) : subseq a b -> subseq c d -> subseq (a ++ c) (b ++ d).
Proof. intros H; revert c d; induction H; intros c d Hc; cbn; auto; constructor; auto. Qed.

Lemma subseq_nil_l (l : list V) : subseq [] l.
Proof. induction l; constructor; auto. Qed.

Lemma subseq_trans (a b c : list V) : subseq a b -> subseq b c -> subseq a c.
Proof.
  intros Hab Hbc. revert a Hab. induction Hbc; intros a Hab.
  - exact Hab.
  - inversion Hab; subst.
    + constructor; auto.
    + constructor; auto.
  - constructor; auto.
Qed.

Lemma subseq_removelast (l : list V) : subseq (removelast l) l.
Proof.
  induction l as [|x [|y t] IH]; cbn [removelast].
  - constructor.
  - apply subseq_nil_l.
  - constructor. exact IH.
Qed.

Lemma spec_conserve rs : forall f : fifo V,
  HandOk f ->
  let tr := combine rs (snd (spec_run f rs)) in
  forallb (fun r => negb (sis_force r)) rs = true ->
  careful (inhand f) tr ->
  pending f ++ published tr = finished (inhand f) tr ++ pending (fst (spec_run f rs)).
Proof.
  induction rs as [|r t IH]; intros f HH tr Hnf Hc; subst tr.
  - cbn. rewrite app_nil_r. reflexivity.
  - cbn [spec_run] in *. cbn [forallb] in Hnf. apply andb_true_iff in Hnf as [Hr Hnf].
    specialize (IH (fst (spec_step f r))).
    destruct (spec_step f r) as [f1 a] eqn:Es; cbn [fst] in IH.
    destruct (spec_run f1 t) as [f2 l] eqn:Er; cbn [fst snd] in *.
    cbn [combine] in *.
    destruct f as [fc fp fl flo fg fi fw fr]; unfold HandOk in *; cbn [inhand pending] in *.
    destruct r as [| |v|v| | | | | |]; cbn [spec_step] in Es; try discriminate Hr;
      try (inversion Es; subst; cbn [published finished careful inhand pending] in *;
           apply IH; assumption).
    + (* Commit *)
      destruct fg; inversion Es; subst; cbn [published finished careful inhand pending] in *.
      * rewrite <- IH; auto.
        -- rewrite <- app_assoc. reflexivity.
        -- destruct fi; auto. destruct fp; [discriminate|exact HH].
      * apply IH; auto.
    + (* Peek *)
      inversion Es; subst; cbn [published finished careful inhand pending] in *.
      apply IH; auto. destruct fp; cbn; auto.
    + (* Remove *)
      destruct fp as [|v fp]; inversion Es; subst; cbn [published finished careful inhand pending] in *.
      * destruct Hc as [Hc1 Hc2]. destruct fi as [v0|]; [discriminate HH|congruence].
      * destruct Hc as [Hc1 Hc2]. destruct fi as [v0|]; [|congruence].
        cbn in HH; inversion HH; subst v0.
        cbn [app]. f_equal. apply IH; auto.
Qed.

Lemma spec_conserve_force rs : forall f : fifo V,
  HandOk f -> 2 <= cap f -> length (pending f) <= cap f ->
  (granted f = true -> length (pending f) < cap f) ->
  let tr := combine rs (snd (spec_run f rs)) in
  careful (inhand f) tr ->
  subseq (finished (inhand f) tr ++ pending (fst (spec_run f rs))) (pending f ++ published tr) /\
  length (pending f ++ published tr) + lost f =
    length (finished (inhand f) tr) + length (pending (fst (spec_run f rs)))
     + lost (fst (spec_run f rs)).
Proof.
  induction rs as [|r t IH]; intros f HH Hcap Hlen Hg tr Hc; subst tr.
  - cbn. rewrite app_nil_r. split; [apply subseq_refl|lia].
  - cbn [spec_run] in *.
    specialize (IH (fst (spec_step f r))). rewrite spec_step_cap in IH.
    destruct (spec_step f r) as [f1 a] eqn:Es; cbn [fst] in IH.
    destruct (spec_run f1 t) as [f2 l] eqn:Er; cbn [fst snd] in *.
    cbn [combine] in *.
    destruct f as [fc fp fl flo fg fi fw fr]; unfold HandOk in *; cbn [inhand pending cap granted lost] in *.
    destruct r as [| |v|v| | | | | |]; cbn [spec_step] in Es;
      try (inversion Es; subst; cbn [published finished careful inhand pending cap granted lost] in *;
           apply IH; assumption).
    + (* Request *)
      inversion Es; subst; cbn [published finished careful inhand pending cap granted lost] in *.
      apply IH; auto. intros Hb. apply Nat.ltb_lt in Hb. exact Hb.
    + (* Force *)
      destruct (Nat.ltb_spec (length fp) fc) as [Hlt|Hge]; inversion Es; subst;
        cbn [published finished careful inhand pending cap granted lost] in *.
      * apply IH; auto.
      * rewrite removelast_length in IH.
        assert (Hh : match fi with Some v => hd_error (removelast fp) = Some v | None => True end).
        { destruct fi; auto. destruct fp as [|x [|y u]]; cbn in *; auto; lia. }
        destruct (IH Hh) as [IH1 IH2]; auto; try lia.
        split.
        -- eapply subseq_trans; [exact IH1|]. apply subseq_app; [apply subseq_removelast|apply subseq_refl].
        -- rewrite app_length in *. rewrite removelast_length in IH2. lia.
    + (* Commit *)
      destruct fg; inversion Es; subst; cbn [published finished careful inhand pending cap granted lost] in *.
      * specialize (Hg eq_refl). rewrite !app_length in IH; cbn [length] in IH.
        rewrite <- app_assoc in IH. cbn [app] in IH. rewrite app_length; cbn [length].
        assert (Hh : match fi with Some v0 => hd_error (fp ++ [v]) = Some v0 | None => True end).
        { destruct fi; auto. destruct fp; [discriminate|exact HH]. }
        destruct (IH Hh) as [IH1 IH2]; auto; try lia; try discriminate.
        split; [exact IH1|]. lia.
      * apply IH; auto.
    + (* Peek *)
      inversion Es; subst; cbn [published finished careful inhand pending cap granted lost] in *.
      apply IH; auto. destruct fp; cbn; auto.
    + (* Remove *)
      destruct fp as [|v fp]; inversion Es; subst;
        cbn [published finished careful inhand pending cap granted lost length] in *.
      * destruct Hc as [Hc1 Hc2]. destruct fi as [v0|]; [discriminate HH|congruence].
      * destruct Hc as [Hc1 Hc2]. destruct fi as [v0|]; [|congruence].
        cbn in HH; inversion HH; subst v0.
        destruct IH as [IH1 IH2]; auto; try lia.
        split; [cbn; constructor; exact IH1|]. cbn [length app] in *. lia.
Qed.

End SpecFacts.

(** Combination of the refinement with the facts on the specification. *)
Section Combine.
Context {V : Type}.

Lemma fifo_no_force n w ids (b : V) os :
  1 <= n -> ~ In Force os ->
  exists s xs, run (init n w ids b) os = Some (s, xs) /\
    xs = snd (spec_run (spec_init (Nat.min n 250 - 1) w ids b) os).
Proof.
  intros Hn Hf.
  destruct (run_strong os (init n w ids b) _ (init_rel n w ids b Hn)) as (s & xs & A & B & _).
  - right. apply forallb_forall. intros x Hx. destruct x; auto; contradiction.
  - exists s, xs. auto.
Qed.

Lemma fifo_force n w ids (b : V) os :
  3 <= n ->
  exists s xs, run (init n w ids b) os = Some (s, xs) /\
    xs = snd (spec_run (spec_init (Nat.min n 250 - 1) w ids b) os).
Proof.
  intros Hn. assert (H1 : 1 <= n) by lia.
  destruct (run_strong os (init n w ids b) _ (init_rel n w ids b H1)) as (s & xs & A & B & _).
  - left. cbn [cap spec_init]. unfold MAX_FRAMES. lia.
  - exists s, xs. auto.
Qed.

Lemma fifo_force2 n w ids (b : V) os :
  2 <= n -> ~ In ReadHeld os ->
  exists s xs, run (init n w ids b) os = Some (s, xs) /\
    xs = snd (spec_run (spec_init (Nat.min n 250 - 1) w ids b) os).
Proof.
  intros Hn Hf. assert (H1 : 1 <= n) by lia.
  destruct (run_weak os (init n w ids b) _ (rel_rel0 _ _ (init_rel n w ids b H1)))
    as (s & xs & A & B & _).
  - cbn [cap spec_init]. unfold MAX_FRAMES. lia.
  - apply forallb_forall. intros x Hx. destruct x; auto; contradiction.
  - exists s, xs. auto.
Qed.

Lemma delivered_prefix n w ids (b : V) os s xs :
  1 <= n -> ~ In Force os ->
  run (init n w ids b) os = Some (s, xs) ->
  careful None (combine os xs) ->
  exists rest, published (combine os xs) = finished None (combine os xs) ++ rest /\
    length rest < Nat.min n 250 /\
    step s Count = Some (s, Num (length rest)).
Proof.
  intros Hn Hf Hrun Hc.
  assert (Hnf : forallb (fun o : request V => negb (is_force o)) os = true).
  { apply forallb_forall. intros x Hx. destruct x; auto; contradiction. }
  destruct (run_strong os (init n w ids b) _ (init_rel n w ids b Hn)) as (s' & xs' & A & B & HR).
  { right. exact Hnf. }
  rewrite Hrun in A; injection A as Es Ex; rewrite <- Es in HR; rewrite <- Ex in B.
  set (f0 := spec_init (Nat.min n MAX_FRAMES - 1) w ids b) in *.
  pose proof (spec_conserve os f0 I) as HS. cbn zeta in HS. rewrite <- B in HS.
  specialize (HS Hnf Hc). cbn [pending f0 spec_init app] in HS.
  exists (pending (fst (spec_run f0 os))). split; [exact HS|].
  destruct HR as (HQ & _ & _). split.
  - pose proof (rq_len _ _ HQ) as HL.
    assert (HC : cap (fst (spec_run f0 os)) = Nat.min n MAX_FRAMES - 1).
    { change (Nat.min n MAX_FRAMES - 1) with (cap f0). clear. generalize f0.
      induction os as [|r t IH]; intros f; [reflexivity|]. cbn [spec_run].
      destruct (spec_step f r) as [f1 a] eqn:E.
      pose proof (spec_step_cap f r) as HC; rewrite E in HC; cbn [fst] in HC.
      specialize (IH f1). destruct (spec_run f1 t); cbn [fst] in *. congruence. }
    unfold MAX_FRAMES in *. lia.
  - cbn [step]. rewrite (elements_ok _ _ HQ). reflexivity.
Qed.

Lemma conserved_with_force n w ids (b : V) os s xs :
  3 <= n ->
  run (init n w ids b) os = Some (s, xs) ->
  careful None (combine os xs) ->
  exists rest nlost, subseq (finished None (combine os xs) ++ rest) (published (combine os xs)) /\
    step s Count = Some (s, Num (length rest)) /\
    step s Lost = Some (s, Num nlost) /\
    length (published (combine os xs)) =
      length (finished None (combine os xs)) + length rest + nlost.
Proof.
  intros Hn Hrun Hc. assert (H1 : 1 <= n) by lia.
  destruct (run_strong os (init n w ids b) _ (init_rel n w ids b H1)) as (s' & xs' & A & B & HR).
  { left. cbn [cap spec_init]. unfold MAX_FRAMES. lia. }
  rewrite Hrun in A; injection A as Es Ex; rewrite <- Es in HR; rewrite <- Ex in B.
  set (f0 := spec_init (Nat.min n MAX_FRAMES - 1) w ids b) in *.
  pose proof (spec_conserve_force os f0 I) as HS. cbn zeta in HS. rewrite <- B in HS.
  destruct HS as [HS1 HS2]; auto.
  { cbn. unfold MAX_FRAMES. lia. }
  { cbn. lia. }
  { cbn. discriminate. }
  cbn [pending f0 spec_init app lost inhand] in HS1, HS2.
  exists (pending (fst (spec_run f0 os))), (lost (fst (spec_run f0 os))).
  destruct HR as (HQ & _ & _).
  split; [exact HS1|]. split; [|split].
  - cbn [step]. rewrite (elements_ok _ _ HQ). reflexivity.
  - cbn [step]. rewrite (rq_lost _ _ HQ). reflexivity.
  - lia.
Qed.

Lemma force_returns n w ids (b : V) os s xs :
  2 <= n ->
  run (init n w ids b) os = Some (s, xs) ->
  exists q i, (forall fuel, 1 <= fuel -> forceGetRear fuel (sq s) = Ok (q, i)) /\
     rlost (sq s) <= rlost q <= rlost (sq s) + 1 /\
     (rlost q = rlost (sq s) <-> getElements (sq s) < rmax (sq s) - 1).
Proof.
  intros Hn Hrun.
  destruct (reach_rel0 n w ids b os s xs) as (f & HQ & HW & Hc); auto.
  assert (Hcap : 1 <= cap f) by (rewrite Hc; unfold MAX_FRAMES; lia).
  destruct (Nat.ltb_spec (length (pending f)) (cap f)) as [Hlt|Hge].
  - exists (sq s), (rrear (sq s)). split; [|split].
    + intros fuel Hfu. rewrite (force_ok _ _ _ HQ Hcap Hfu).
      destruct (Nat.ltb_spec (length (pending f)) (cap f)); [reflexivity|lia].
    + lia.
    + rewrite (elements_ok _ _ HQ), (rq_cap _ _ HQ). split; lia.
  - exists (flush (sq s)), (rrear (flush (sq s))). split; [|split].
    + intros fuel Hfu. rewrite (force_ok _ _ _ HQ Hcap Hfu).
      destruct (Nat.ltb_spec (length (pending f)) (cap f)); [lia|reflexivity].
    + cbn. lia.
    + rewrite (elements_ok _ _ HQ), (rq_cap _ _ HQ). cbn. split; lia.
Qed.

Lemma full_reports n w ids (b : V) os s xs :
  2 <= n ->
  run (init n w ids b) os = Some (s, xs) ->
  isFull (sq s) = (9 * rmax (sq s) <? 10 * getElements (sq s)).
Proof.
  intros Hn Hrun. destruct (elements_bound n w ids b os s xs) as [Hm He]; auto.
  apply full_threshold; auto. rewrite Hm. unfold MAX_FRAMES. lia.
Qed.

End Combine.

(** A one-slot queue never offers its slot. *)
Lemma one_slot_no_offer {V : Type} (os : list (request V)) : forall (s : sys V) s' xs,
  rmax (sq s) = 1 -> rrear (sq s) = 0 -> rfront (sq s) = 0 -> wheld s = None ->
  run s os = Some (s', xs) -> wheld s' = None.
Proof.
  induction os as [|o t IH]; intros s s' xs M R F W H; cbn [run] in H; [inversion H; subst; exact W|].
  destruct (step s o) as [[s1 x]|] eqn:S; [|discriminate].
  destruct (run s1 t) as [[s2 ys]|] eqn:T; [|discriminate]. inversion H; subst s2 xs.
  assert (E : rmax (sq s1) = 1 /\ rrear (sq s1) = 0 /\ rfront (sq s1) = 0 /\ wheld s1 = None).
  { destruct o; cbn [step] in S.
    - unfold getRear in S. rewrite M, R, F in S. cbn in S. inversion S; subst. cbn. auto.
    - rewrite (force_diverges (sq s) M R F) in S. discriminate.
    - rewrite W in S. inversion S; subst. auto.
    - rewrite W in S. inversion S; subst. auto.
    - unfold getFront in S. rewrite R, F in S. cbn in S. inversion S; subst. cbn. auto.
    - destruct (rheld s) as [i|]; [destruct (slot_read (sq s) i)|]; inversion S; subst; auto.
    - unfold removeFrame in S. rewrite R, F in S. cbn in S. inversion S; subst. cbn. auto.
    - unfold forceGetFront in S. rewrite M in S. cbn in S. destruct (rslots (sq s)); inversion S; subst; auto.
    - inversion S; subst; auto.
    - inversion S; subst; auto. }
  destruct E as (E1 & E2 & E3 & E4). exact (IH s1 s' ys E1 E2 E3 E4 T).
Qed.

Lemma offered_slot_any {V : Type} n w ids (b : V) os s xs i :
  1 <= n ->
  run (init n w ids b) os = Some (s, xs) ->
  wheld s = Some i ->
  i < rmax (sq s) /\
  (forall k, k < getElements (sq s) -> (rfront (sq s) + k) mod rmax (sq s) <> i) /\
  (rfront (sq s) + (rmax (sq s) - 1)) mod rmax (sq s) <> i.
Proof.
  intros N H W. destruct (Nat.eq_dec n 1) as [-> | D].
  - assert (wheld s = None) by (eapply (one_slot_no_offer os (init 1 w ids b)); eauto). congruence.
  - apply (@offered_slot_lemma V n w ids b os s xs i); auto. left. lia.
Qed.
