(** Property theorems C43: the audio buffer's fill counter under concurrency. *)
From Verif Require Import Base AudioRaceModel.

(** Schedules in which a compound assignment is not interrupted by the other thread's. *)
Fixpoint undisturbed (es : list rev) : bool :=
  match es with
  | [] => true
  | WLoad _ :: WStore :: t => undisturbed t
  | RLoad _ :: RStore :: t => undisturbed t
  | _ => false
  end.

Lemma undisturbed_counts L : forall es s s', 
  undisturbed es = true -> wpc s = None -> rpc s = None -> relem s + popped s = pushed s -> relem s <= L ->
  rrun L s es = Some s' -> relem s' + popped s' = pushed s' /\ relem s' <= L.
Proof.
  fix IH 1. intros es s s' Hu Hw Hr He HL H.
  destruct es as [|e t]; [inversion H; subst; auto|].
  destruct e as [n| |n|]; cbn in Hu; try discriminate; destruct t as [|e2 t]; try discriminate;
    destruct e2; try discriminate; cbn [rrun rstep] in H.
  - rewrite Hw in H. destruct (Nat.leb_spec n (L - relem s)); [|discriminate]. cbn [wpc rpc relem pushed popped] in H.
    eapply (IH t _ s' Hu); [| | | |exact H]; cbn; try assumption; try reflexivity; lia.
  - rewrite Hr in H. destruct (Nat.leb_spec n (relem s)); [|discriminate]. cbn [wpc rpc relem pushed popped] in H.
    eapply (IH t _ s' Hu); [| | | |exact H]; cbn; try assumption; try reflexivity; lia.
Qed.

(** If pushes and pops never overlap, the counter is the number of bytes accepted and
    not yet delivered, and never exceeds the storage. *)
Theorem undisturbed_fill_counter_exact :
  forall L es s, undisturbed es = true -> rrun L race0 es = Some s ->
  relem s + popped s = pushed s /\ relem s <= L.
Proof. intros L es s Hu H. refine (undisturbed_counts L es race0 s Hu eq_refl eq_refl eq_refl _ H). cbn; lia. Qed.
Print Assumptions undisturbed_fill_counter_exact.

Example undisturbed_ex : exists s, undisturbed [WLoad 5; WStore; RLoad 3; RStore; WLoad 4; WStore] = true /\
  rrun 8 race0 [WLoad 5; WStore; RLoad 3; RStore; WLoad 4; WStore] = Some s /\ relem s = 6.
Proof. eexists. vm_compute. repeat split. Qed.

(** Overlapping them loses an update: the reader is offered bytes that were never
    accepted, or accepted bytes disappear. *)
Theorem overlapping_fill_counter_refuted :
  (exists es s, rrun 8 race0 es = Some s /\ wpc s = None /\ rpc s = None /\ pushed s < popped s) /\
  (exists es s, rrun 8 race0 es = Some s /\ wpc s = None /\ rpc s = None /\ relem s = 0 /\ popped s < pushed s).
Proof.
  split.
  - exists [WLoad 4; WStore; WLoad 2; RLoad 4; RStore; WStore; RLoad 6; RStore].
    eexists. vm_compute. repeat split; auto.
  - exists [WLoad 4; WStore; RLoad 4; WLoad 2; WStore; RStore].
    eexists. vm_compute. repeat split; auto.
Qed.
Print Assumptions overlapping_fill_counter_refuted.
