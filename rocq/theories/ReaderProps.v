(** Property theorems C06: several filters sharing one reader. *)
From Verif Require Import Base ZMap ReaderModel ReaderSpec ReaderProofs.

(** C06. In every history of arrivals, fetches and releases in any order by a fixed
    set of filters that release only what they were given: every filter was given
    as new exactly the arrived frames, once each and in order, and is at most one
    frame ahead of the queue; a frame has left the queue exactly when the slowest
    filter released it. *)
Theorem sharing_filters_see_every_frame_once :
  forall (V : Type) (f0 : Z) (fs : list Z) (s : rdr V) tr,
  history (shared f0 fs) s tr -> proper tr -> fixed tr ->
  (forall f x, In (Release f, x) tr -> In f (f0 :: fs)) ->
  (forall f, In f (f0 :: fs) ->
     seen f tr = firstn (length (seen f tr)) (arrived tr) /\
     gone tr <= released f tr <= length (seen f tr) /\ length (seen f tr) <= gone tr + 1) /\
  (exists f, In f (f0 :: fs) /\ released f tr = gone tr).
Proof. exact (@shared_main). Qed.
Print Assumptions sharing_filters_see_every_frame_once.

(** C06: as long as a frame is pending, any filter that fetches gets the oldest
    frame that has not left the queue - the same for all - flagged as new exactly if
    it has not been given it before. *)
Theorem sharing_filters_get_the_same_frame :
  forall (V : Type) (f0 : Z) (fs : list Z) (s : rdr V) tr f s' v b,
  history (shared f0 fs) s tr -> proper tr -> fixed tr ->
  (forall g x, In (Release g, x) tr -> In g (f0 :: fs)) ->
  In f (f0 :: fs) ->
  gone tr < length (arrived tr) ->
  rdstep s (Get f) = ROk s' (Got v b) ->
  v = nth_error (arrived tr) (gone tr) /\
  (b = true <-> length (seen f tr) = gone tr).
Proof. exact (@shared_same_frame). Qed.
Print Assumptions sharing_filters_get_the_same_frame.

(** C06: no call of such a history dereferences a null frame. *)
Theorem sharing_filters_never_crash :
  forall (V : Type) (f0 : Z) (fs : list Z) (s : rdr V) tr,
  history (shared f0 fs) s tr -> proper tr -> fixed tr ->
  (forall f x, In (Release f, x) tr -> In f (f0 :: fs)) ->
  forall o, match o with
            | Release f => In f (f0 :: fs) /\ released f tr < length (seen f tr)
            | _ => True end -> rdstep s o <> NullDeref.
Proof. exact (@shared_safe). Qed.
Print Assumptions sharing_filters_never_crash.

Fixpoint play {V} (s : rdr V) (os : list (rop V)) (tr : list (rop V * rans V)) :=
  match os with
  | [] => Some (s, tr)
  | o :: t => match rdstep s o with ROk s' x => play s' t (tr ++ [(o, x)]) | NullDeref => None end
  end.

Lemma play_history {V} (s0 : rdr V) os : forall s tr s' tr',
  history s0 s tr -> play s os tr = Some (s', tr') -> history s0 s' tr'.
Proof.
  induction os as [|o t IH]; intros s tr s' tr' H E; cbn in E; [inversion E; subst; exact H|].
  destruct (rdstep s o) as [s1 x|] eqn:Es; [|discriminate].
  eapply IH; [|exact E]. econstructor; eauto.
Qed.

(** Two filters, interleaved, two frames: a history that meets the hypotheses. *)
Example sharing_ex :
  exists s tr, history (shared 1 [2%Z]) s tr /\
   tr = [(Arrive 5, Done true); (Get 1%Z, Got (Some 5) true); (Arrive 6, Done true);
         (Release 1%Z, Removed false); (Get 1%Z, Got (Some 5) false); (Get 2%Z, Got (Some 5) true);
         (Release 2%Z, Removed true); (Get 2%Z, Got (Some 6) true)] /\
   fixed tr /\ seen 1 tr = [5] /\ seen 2 tr = [5; 6] /\ gone tr = 1.
Proof.
  pose (os := [Arrive 5; Get 1%Z; Arrive 6; Release 1%Z; Get 1%Z; Get 2%Z; Release 2%Z; Get 2%Z]).
  destruct (play (shared 1 [2%Z]) os []) as [[s tr]|] eqn:E; [|vm_compute in E; discriminate].
  pose proof (play_history _ os _ [] s tr (h_nil _) E) as H.
  vm_compute in E. inversion E; subst. do 2 eexists. split; [exact H|].
  split; [reflexivity|]. split; [|repeat split].
  intros o x Hin. cbn in Hin.
  repeat (destruct Hin as [Hin|Hin]; [inversion Hin; exact I|]). contradiction.
Qed.

(** C06 fails when a filter leaves in the middle of a round after the others have
    released: the frame is never removed and no other filter is ever given a new
    frame again, whatever arrives. *)
Theorem leaving_mid_round_stalls_refuted :
  exists s tr, history (shared 1 [2%Z]) s tr /\
   tr = [(Arrive 5, Done true); (Get 1%Z, Got (Some 5) true); (Release 1%Z, Removed false);
         (Leave 2%Z, Done true)] /\
   forall s' tr', history s s' tr' ->
     (forall o x, In (o, x) tr' -> match o with Arrive _ | Get _ => True | _ => False end) ->
     (forall f, seen f tr' = []) /\ gone tr' = 0.
Proof.
  pose (os := [Arrive 5; Get 1%Z; Release 1%Z; Leave 2%Z]).
  destruct (play (shared 1 [2%Z]) os []) as [[s tr]|] eqn:E; [|vm_compute in E; discriminate].
  pose proof (play_history _ os _ [] s tr (h_nil _) E) as H.
  vm_compute in E. inversion E; subst. do 2 eexists. split; [exact H|].
  split; [reflexivity|]. intros s' tr' Hh Ho.
  edestruct (stall_state [(1%Z, (false, false))] 5) with (s0 := mkRdr true [(1%Z, (false, false))] (Some 5) false [5] (@None nat))
    as (A & B & _); eauto.
  - cbn; auto.
  - intros f fl Hf. cbn in Hf. destruct (f =? 1)%Z; inversion Hf; reflexivity.
Qed.
Print Assumptions leaving_mid_round_stalls_refuted.

(** C06: once the last filter has left, nobody can join, nobody is given anything and no frame leaves the queue, whatever happens. *)
Theorem after_the_last_filter_nothing_leaves : forall (V : Type) (s : rdr V) f s1 x s2 tr,
  mmem f (filters s) = true -> rdstep s (Leave f) = ROk s1 x -> filters s1 = [] -> history s1 s2 tr ->
  filters s2 = [] /\ gone tr = 0 /\ (forall g, seen g tr = []) /\ (forall g v b, In (Get g, Got v b) tr -> v = None /\ b = false).
Proof.
  intros V s f s1 x s2 tr M L F H.
  assert (O : open s1 = false).
  { cbn [rdstep] in L. unfold disconnect, mmem in *. destruct (mfind f (filters s)); [|discriminate].
    destruct (mdel f (filters s)) as [|pp mm] eqn:D; inversion L; subst; [reflexivity|]. cbn [filters] in F. discriminate. }
  clear L M. assert (G : open s2 = false /\ filters s2 = [] /\ gone tr = 0 /\ (forall g, seen g tr = []) /\ (forall g v b, In (Get g, Got v b) tr -> v = None /\ b = false)); [|tauto].
  induction H as [|s2 tr o s3 y H IH S]; [repeat split; auto; contradiction|].
  destruct IH as (O2 & F2 & G2 & S2 & A2). unfold gone, seen in *.
  assert (K : open s3 = false /\ filters s3 = [] /\ match o, y with Get _, Got v b => v = None /\ b = false | Get _, _ => False | Release _, Removed b => b = false | _, _ => True end).
  { destruct o as [v|g|g|g|g]; cbn [rdstep] in S.
    - inversion S; subst; cbn [open filters]. auto.
    - unfold getFrame in S. rewrite O2 in S. cbn [negb] in S. inversion S; subst. auto.
    - unfold removeFrame in S. rewrite F2 in S. cbn [mfind allRead forallb] in S. destruct (frame s2); [|discriminate]. rewrite O2 in S. inversion S; subst; cbn [open filters]. auto.
    - unfold addReader in S. rewrite O2 in S. cbn [andb] in S. inversion S; subst. auto.
    - unfold disconnect in S. rewrite F2 in S. cbn [mfind] in S. inversion S; subst. auto. }
  destruct K as (O3 & F3 & K). split; [exact O3|]. split; [exact F3|]. split; [|split].
  - rewrite filter_app, app_length, G2. cbn [filter]. destruct o; try reflexivity. destruct y; try reflexivity. subst. reflexivity.
  - intros g. rewrite flat_map_app, S2. cbn [flat_map app]. destruct o; try reflexivity. destruct y as [v b|b|b]; try contradiction. destruct K as [-> ->]. reflexivity.
  - intros g v b J. apply in_app_or in J. destruct J as [J|[J|[]]]; [exact (A2 g v b J)|]. inversion J; subst. exact K.
Qed.
Print Assumptions after_the_last_filter_nothing_leaves.
Example after_the_last_filter_ex : exists s s1 x s2 tr, play (shared 1%Z []) [Arrive 5; Get 1%Z; Arrive 6] [] = Some (s, [(Arrive 5, Done true); (Get 1%Z, Got (Some 5) true); (Arrive 6, Done true)]) /\
  mmem 1%Z (filters s) = true /\ rdstep s (Leave 1%Z) = ROk s1 x /\ filters s1 = [] /\ play s1 [Release 1%Z; Join 2%Z; Get 2%Z; Arrive 7] [] = Some (s2, tr) /\ pending s2 = [5; 6; 7].
Proof. do 5 eexists. repeat split; reflexivity. Qed.
(** A release while no frame is out dereferences NULL (measureDelay). *)
Theorem release_without_frame_refuted :
  rdstep (shared 1 [2%Z] : rdr nat) (Release 1%Z) = NullDeref.
Proof. exact eq_refl. Qed.
Print Assumptions release_without_frame_refuted.
