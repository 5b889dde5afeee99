From Verif Require Import Base ZMap ReaderModel ReaderSpec.

Section Proofs.
Context {V : Type}.
Notation trace := (list (rop V * rans V)).

Lemma arrived_snoc (tr : trace) o x : arrived (tr ++ [(o, x)]) =
  arrived tr ++ match o with Arrive v => [v] | _ => [] end.
Proof. unfold arrived. rewrite flat_map_app. cbn. rewrite app_nil_r. destruct o; reflexivity. Qed.

Lemma seen_snoc f (tr : trace) o x : seen f (tr ++ [(o, x)]) =
  seen f tr ++ match o, x with Get g, Got (Some v) true => if (g =? f)%Z then [v] else [] | _, _ => [] end.
Proof. unfold seen. rewrite flat_map_app. cbn. rewrite app_nil_r. reflexivity. Qed.

Lemma released_snoc f (tr : trace) o x : released f (tr ++ [(o, x)]) =
  released f tr + match o with Release g => if (g =? f)%Z then 1 else 0 | _ => 0 end.
Proof.
  unfold released. rewrite filter_app, app_length. f_equal. cbn.
  destruct o; cbn; try reflexivity. destruct (_ =? _)%Z; reflexivity.
Qed.

Lemma gone_snoc (tr : trace) o x : gone (tr ++ [(o, x)]) =
  gone tr + match o, x with Release _, Removed true => 1 | _, _ => 0 end.
Proof.
  unfold gone. rewrite filter_app, app_length. f_equal. cbn.
  destruct o, x as [| []|]; reflexivity.
Qed.

(** Flags of one filter and its counters. *)
Definition flag_ok (tr : trace) (f : Z) (fl : bool * bool) : Prop :=
  (fl = (true, true) /\ length (seen f tr) = gone tr /\ released f tr = gone tr) \/
  (fl = (false, true) /\ length (seen f tr) = gone tr + 1 /\ released f tr = gone tr) \/
  (fl = (false, false) /\ length (seen f tr) = gone tr + 1 /\ released f tr = gone tr + 1).

Record RInv (fs : list Z) (s : rdr V) (tr : trace) : Prop := {
  ri_open : open s = true;
  ri_sort : msorted (filters s);
  ri_keys : forall f, In f fs <-> mfind f (filters s) <> None;
  ri_pend : exists d, arrived tr = d ++ pending s /\ length d = gone tr;
  ri_seen : forall f, In f fs -> seen f tr = firstn (length (seen f tr)) (arrived tr);
  ri_idle : ready s = true -> frame s = None /\
      forall f fl, mfind f (filters s) = Some fl ->
        fl = (false, false) /\ length (seen f tr) = gone tr /\ released f tr = gone tr;
  ri_busy : ready s = false ->
      (exists v, frame s = Some v /\ hd_error (pending s) = Some v) /\
      (forall f fl, mfind f (filters s) = Some fl -> flag_ok tr f fl) /\
      exists f fl, mfind f (filters s) = Some fl /\ fl <> (false, false)
}.

Lemma arm_find m f : mfind f (arm m) = match mfind f m with Some _ => Some (true, true) | None => None end.
Proof.
  unfold arm. induction m as [|[k v] t IH]; cbn; [reflexivity|].
  destruct (f =? k)%Z; auto.
Qed.

Lemma arm_sorted m : forall lo, sorted_from lo m -> sorted_from lo (arm m).
Proof.
  unfold arm. induction m as [|[k v] t IH]; intros lo H; cbn in *; [exact I|].
  destruct H; split; auto.
Qed.

Lemma allRead_spec m : msorted m ->
  (allRead m = true <-> forall f fl, mfind f m = Some fl -> fl = (false, false)).
Proof.
  intros Hs. unfold allRead. rewrite forallb_forall. split.
  - intros H f fl Hf. apply mfind_In in Hf. specialize (H _ Hf). cbn in H.
    destruct fl as [[] []]; cbn in H; try discriminate; reflexivity.
  - intros H [k v] HI. pose proof (In_mfind m None k v Hs HI) as Hf.
    rewrite (H _ _ Hf). reflexivity.
Qed.

Lemma firstn_snoc_le {A} (l : list A) x n : n <= length l -> firstn n (l ++ [x]) = firstn n l.
Proof. intros H. rewrite firstn_app. replace (n - length l) with 0 by lia. cbn. apply app_nil_r. Qed.

Lemma seen_len fs s tr f : RInv fs s tr -> In f fs -> length (seen f tr) <= length (arrived tr).
Proof.
  intros [_ _ _ _ H _ _] Hf. rewrite (H f Hf) at 1. rewrite firstn_length. lia.
Qed.

Lemma flag_ok_eq tr tr' f fl : length (seen f tr') = length (seen f tr) -> released f tr' = released f tr ->
  gone tr' = gone tr -> flag_ok tr f fl -> flag_ok tr' f fl.
Proof. unfold flag_ok. intros -> -> ->. auto. Qed.

Lemma step_arrive fs s tr v : RInv fs s tr ->
  RInv fs (mkRdr (open s) (filters s) (frame s) (ready s) (pending s ++ [v]) (prev s))
       (tr ++ [(Arrive v, Done true)]).
Proof.
  intros HI. pose proof (seen_len fs s tr) as HL. destruct HI as [Ho Hs Hk (d & Hd & Hg) Hse Hi Hb].
  constructor; cbn [open filters frame ready pending prev]; auto.
  - exists d. rewrite arrived_snoc, gone_snoc, Hd, app_assoc. split; [reflexivity|lia].
  - intros f Hf. rewrite seen_snoc, app_nil_r, arrived_snoc, firstn_snoc_le; [apply Hse; exact Hf|].
    apply HL; [constructor; auto; exists d; auto|exact Hf].
  - intros Hr. destruct (Hi Hr) as [Hfr HF]. split; [exact Hfr|]. intros f fl Hf.
    rewrite seen_snoc, released_snoc, gone_snoc, app_nil_r, !Nat.add_0_r. auto.
  - intros Hr. destruct (Hb Hr) as ((v0 & Hv0 & Hh) & HF & HE). split; [|split; [|exact HE]].
    + exists v0. split; [exact Hv0|]. destruct (pending s); [discriminate|exact Hh].
    + intros f fl Hf. eapply flag_ok_eq; [| | |exact (HF f fl Hf)].
      * rewrite seen_snoc, app_nil_r; reflexivity.
      * rewrite released_snoc; lia.
      * rewrite gone_snoc; lia.
Qed.

Lemma hd_skipn {A} (d p : list A) v : hd_error p = Some v -> firstn (length d + 1) (d ++ p) = d ++ [v].
Proof.
  intros H. destruct p as [|a t]; [discriminate|]. inversion H; subst.
  replace (d ++ v :: t) with ((d ++ [v]) ++ t) by (rewrite <- app_assoc; reflexivity).
  rewrite firstn_app. replace (length d + 1 - length (d ++ [v])) with 0 by (rewrite app_length; cbn; lia).
  cbn. rewrite app_nil_r. apply firstn_all2. rewrite app_length; cbn; lia.
Qed.

(** A filter gets the frame as new: its view extends by the oldest pending frame. *)
Lemma seen_extend (tr : trace) f d p v : arrived tr = d ++ p -> length d = gone tr ->
  hd_error p = Some v -> length (seen f tr) = gone tr ->
  seen f tr = firstn (length (seen f tr)) (arrived tr) ->
  seen f tr ++ [v] = firstn (length (seen f tr ++ [v])) (arrived tr).
Proof.
  intros Ha Hd Hh Hl He. rewrite app_length; cbn [length]. rewrite Hl, <- Hd, Ha.
  rewrite (hd_skipn d p v Hh). f_equal. rewrite He, Hl, <- Hd, Ha.
  rewrite firstn_app, Nat.sub_diag, firstn_all. cbn. apply app_nil_r.
Qed.

Lemma step_get fs s tr f s' x : RInv fs s tr -> getFrame s f = (s', x) ->
  RInv fs s' (tr ++ [(Get f, x)]).
Proof.
  intros HI Hg. pose proof HI as HI0.
  destruct HI as [Ho Hs Hk (d & Hd & Hgo) Hse Hi Hb].
  assert (Hsame : forall y, (match y with Got (Some _) true => False | _ => True end) ->
            RInv fs s (tr ++ [(Get f, y)])).
  { intros y Hy.
    assert (E0 : arrived (tr ++ [(Get f, y)]) = arrived tr) by (rewrite arrived_snoc, app_nil_r; reflexivity).
    assert (E1 : forall g, seen g (tr ++ [(Get f, y)]) = seen g tr).
    { intros g. rewrite seen_snoc. destruct y as [[v|] []| |]; try contradiction; apply app_nil_r. }
    assert (E2 : forall g, released g (tr ++ [(Get f, y)]) = released g tr) by (intros; rewrite released_snoc; lia).
    assert (E3 : gone (tr ++ [(Get f, y)]) = gone tr) by (rewrite gone_snoc; lia).
    constructor; auto.
    - exists d. rewrite E0, E3. auto.
    - intros g Hg'. rewrite E1, E0. auto.
    - intros Hr. destruct (Hi Hr) as [A B]. split; auto. intros g fl Hf. rewrite E1, E2, E3. auto.
    - intros Hr. destruct (Hb Hr) as (A & B & C). split; auto. split; auto.
      intros g fl Hf. eapply flag_ok_eq; [rewrite E1| |  |exact (B g fl Hf)]; auto. }
  unfold getFrame in Hg. rewrite Ho in Hg. cbn [negb] in Hg.
  destruct (mfind f (filters s)) as [fl|] eqn:Ef; [|inversion Hg; subst; apply Hsame; exact I].
  destruct (ready s) eqn:Er.
  - (* first fetch of a round *)
    destruct (Hi eq_refl) as [Hfr HF]. rewrite Hfr in Hg.
    destruct (hd_error (pending s)) as [v|] eqn:Eh;
      [|inversion Hg; subst; apply Hsame; destruct (prev _); exact I].
    rewrite arm_find, Ef in Hg. inversion Hg; subst s' x; clear Hg Hsame.
    assert (Hfs : In f fs) by (apply Hk; rewrite Ef; discriminate).
    constructor; cbn [open filters frame ready pending prev]; auto.
    + apply msorted_mset, arm_sorted, Hs.
    + intros g. rewrite Hk, mfind_mset, arm_find.
      destruct (Z.eqb_spec g f) as [->|]; [rewrite Ef; split; discriminate|].
      destruct (mfind g (filters s)); split; congruence.
    + exists d. rewrite arrived_snoc, app_nil_r, gone_snoc. split; [exact Hd|lia].
    + intros g Hg. rewrite arrived_snoc, app_nil_r, seen_snoc.
      rewrite (Z.eqb_sym f g). destruct (Z.eqb_spec g f) as [->|]; [|rewrite app_nil_r; auto].
      eapply seen_extend; eauto. apply (HF _ _ Ef).
    + discriminate.
    + intros _. split; [exists v; auto|]. split.
      * intros g gl Hg. rewrite mfind_mset, arm_find in Hg.
        unfold flag_ok. rewrite seen_snoc, released_snoc, gone_snoc, !Nat.add_0_r.
        rewrite (Z.eqb_sym f g).
        destruct (Z.eqb_spec g f) as [->|].
        -- inversion Hg; subst gl. right; left. split; [reflexivity|].
           destruct (HF _ _ Ef) as (_ & A & B). rewrite app_length; cbn [length]. split; lia.
        -- destruct (mfind g (filters s)) as [gl0|] eqn:Eg; [|discriminate].
           inversion Hg; subst gl. left. rewrite app_nil_r. destruct (HF _ _ Eg) as (_ & A & B). auto.
      * exists f, (false, true). rewrite mfind_mset_eq. split; [reflexivity|discriminate].
  - destruct (Hb eq_refl) as ((v & Hv & Hh) & HF & HE). rewrite Hv, Ef in Hg.
    pose proof (HF _ _ Ef) as Hfl.
    destruct fl as [[|] b].
    + inversion Hg; subst s' x; clear Hg Hsame.
      destruct Hfl as [(Efl & A & B)|[(Efl & _)|(Efl & _)]]; inversion Efl; subst b.
      assert (Hfs : In f fs) by (apply Hk; rewrite Ef; discriminate).
      constructor; cbn [open filters frame ready pending prev]; auto.
      * apply msorted_mset, Hs.
      * intros g. rewrite Hk, mfind_mset.
        destruct (Z.eqb_spec g f) as [->|]; [rewrite Ef; split; discriminate|reflexivity].
      * exists d. rewrite arrived_snoc, app_nil_r, gone_snoc. split; [exact Hd|lia].
      * intros g Hg. rewrite arrived_snoc, app_nil_r, seen_snoc.
        rewrite (Z.eqb_sym f g). destruct (Z.eqb_spec g f) as [->|]; [|rewrite app_nil_r; auto].
        eapply seen_extend; eauto.
      * discriminate.
      * intros _. split; [exists v; auto|]. split.
        -- intros g gl Hg. rewrite mfind_mset in Hg.
           unfold flag_ok. rewrite seen_snoc, released_snoc, gone_snoc, !Nat.add_0_r, (Z.eqb_sym f g).
           destruct (Z.eqb_spec g f) as [->|].
           ++ inversion Hg; subst gl. right; left. rewrite app_length; cbn [length].
              split; [reflexivity|]. split; lia.
           ++ rewrite app_nil_r. exact (HF _ _ Hg).
        -- exists f, (false, true). rewrite mfind_mset_eq. split; [reflexivity|discriminate].
    + inversion Hg; subst s' x. assert (Hss := Hsame (Got (Some v) false) I).
      destruct s; cbn in *; subst. exact Hss.
Qed.

Lemma step_release fs s tr f : RInv fs s tr -> In f fs -> released f tr < length (seen f tr) ->
  exists s' b, removeFrame s f = ROk s' (Removed b) /\ RInv fs s' (tr ++ [(Release f, Removed b)]).
Proof.
  intros HI Hfs Hlt.
  destruct HI as [Ho Hs Hk (d & Hd & Hgo) Hse Hi Hb].
  destruct (mfind f (filters s)) as [fl|] eqn:Ef; [|apply Hk in Hfs; contradiction].
  destruct (ready s) eqn:Er.
  { destruct (Hi eq_refl) as [_ HF]. destruct (HF _ _ Ef) as (_ & A & B). lia. }
  destruct (Hb eq_refl) as ((v & Hv & Hh) & HF & HE).
  destruct (HF _ _ Ef) as [(E & A & B)|[(E & A & B)|(E & A & B)]]; try lia. subst fl.
  unfold removeFrame. rewrite Ef, Hv, Ho.
  set (m := mset f (false, false) (filters s)).
  assert (Hms : msorted m) by (apply msorted_mset, Hs).
  assert (Hmk : forall g, In g fs <-> mfind g m <> None).
  { intros g. unfold m. rewrite Hk, mfind_mset.
    destruct (Z.eqb_spec g f) as [->|]; [rewrite Ef; split; discriminate|reflexivity]. }
  destruct (allRead m) eqn:Ea.
  - (* the last filter: the frame leaves the queue *)
    rewrite allRead_spec in Ea by exact Hms.
    destruct (pending s) as [|v0 t] eqn:Ep; [discriminate|]. cbn in Hh. inversion Hh; subst v0; clear Hh.
    do 2 eexists; split; [reflexivity|].
    constructor; cbn [open filters frame ready pending prev]; auto.
    + exists (d ++ [v]). rewrite arrived_snoc, gone_snoc, Hd, app_length, app_nil_r, <- app_assoc. cbn. split; [reflexivity|lia].
    + intros g Hg. rewrite arrived_snoc, seen_snoc, !app_nil_r. auto.
    + intros _. split; [reflexivity|]. intros g gl Hg.
      split; [eapply Ea; exact Hg|].
      rewrite seen_snoc, released_snoc, gone_snoc, app_nil_r, (Z.eqb_sym f g).
      unfold m in Hg. rewrite mfind_mset in Hg.
      destruct (Z.eqb_spec g f) as [->|Hne]; [split; lia|].
      assert (Hgl : gl = (false, false)).
      { apply (Ea g). unfold m. rewrite mfind_mset. destruct (Z.eqb_spec g f); [contradiction|exact Hg]. }
      subst gl. destruct (HF _ _ Hg) as [(E & _)|[(E & _)|(E & A' & B')]]; try discriminate. lia.
    + discriminate.
  - do 2 eexists; split; [reflexivity|].
    assert (Hex : exists g gl, mfind g m = Some gl /\ gl <> (false, false)).
    { clear - Ea Hms. unfold allRead in Ea.
      assert (HX : exists p, In p m /\ negb (fst (snd p) || snd (snd p)) = false).
      { clear -Ea. induction m as [|p t IH]; cbn in *; [discriminate|].
        destruct (negb _) eqn:E; [|exists p; auto]. destruct (IH Ea) as (p' & A & B). exists p'; auto. }
      destruct HX as ([k [a b]] & HIn & Hn). cbn in Hn.
      exists k, (a, b). split; [exact (In_mfind m None k _ Hms HIn)|].
      intros E; inversion E; subst; discriminate. }
    constructor; cbn [open filters frame ready pending prev]; auto.
    + exists d. rewrite arrived_snoc, gone_snoc, app_nil_r. split; [exact Hd|lia].
    + intros g Hg. rewrite arrived_snoc, seen_snoc, !app_nil_r. auto.
    + congruence.
    + intros _. split; [exists v; auto|]. split; [|exact Hex].
      intros g gl Hg. unfold m in Hg. rewrite mfind_mset in Hg.
      unfold flag_ok. rewrite seen_snoc, released_snoc, gone_snoc, app_nil_r, !Nat.add_0_r, (Z.eqb_sym f g).
      destruct (Z.eqb_spec g f) as [->|].
      * inversion Hg; subst gl. right; right. split; [reflexivity|]. lia.
      * rewrite Nat.add_0_r. exact (HF _ _ Hg).
Qed.

(** Every reachable state, with a fixed set of filters. *)
Lemma history_inv fs s0 s tr : RInv fs s0 [] -> history s0 s tr -> proper tr -> fixed tr ->
  (forall f x, In (Release f, x) tr -> In f fs) -> RInv fs s tr.
Proof.
  intros H0 H. induction H as [|s tr o s' x H IH Hst]; intros HP HF HR; [exact H0|].
  assert (IHs : RInv fs s tr).
  { apply IH.
    - intros p f y q E. apply (HP p f y (q ++ [(o, x)])). rewrite E, <- app_assoc. reflexivity.
    - intros o' x' Hin. apply (HF o' x'). apply in_or_app; auto.
    - intros f y Hin. apply (HR f y). apply in_or_app; auto. }
  destruct o as [v|f|f|f|f]; cbn [rdstep] in Hst.
  - inversion Hst; subst. apply step_arrive, IHs.
  - destruct (getFrame s f) as [s1 y] eqn:E. inversion Hst; subst. eapply step_get; eauto.
  - destruct (step_release fs s tr f IHs) as (s1 & b & E & HI).
    + apply (HR f x). apply in_or_app; right; left; reflexivity.
    + apply (HP tr f x []). reflexivity.
    + rewrite E in Hst. inversion Hst; subst. exact HI.
  - exfalso. apply (HF (Join f) x). apply in_or_app; right; left; reflexivity.
  - exfalso. apply (HF (Leave f) x). apply in_or_app; right; left; reflexivity.
Qed.

(** The state in which all filters of [fs] have joined an empty queue. *)
Lemma start_inv f0 fs : RInv (f0 :: fs) (fold_left addReader fs (rinit f0)) [].
Proof.
  assert (HG : forall fs gs s, RInv gs s [] -> ready s = true -> RInv (rev fs ++ gs) (fold_left addReader fs s) []).
  { clear. induction fs as [|f t IH]; intros gs s HI Hr; [exact HI|].
    cbn [fold_left rev]. rewrite <- app_assoc. cbn [app]. apply IH.
    - destruct HI as [Ho Hs Hk Hp Hse Hi Hb]. unfold addReader. rewrite Ho. cbn [andb].
      unfold mmem. destruct (mfind f (filters s)) as [fl|] eqn:Ef; cbn [negb].
      + constructor; auto. intros g. cbn [In]. rewrite <- Hk.
        split; [|auto]. intros [->|]; [|auto]. apply Hk. congruence.
      + constructor; cbn [open filters frame ready pending prev]; auto.
        * apply msorted_mset, Hs.
        * intros g. cbn [In]. rewrite Hk, mfind_mset.
          destruct (Z.eqb_spec g f) as [->|]; [split; [discriminate|auto]|].
          split; [intros [E|]; [congruence|auto]|auto].
        * intros Hr'. destruct (Hi Hr') as [A B]. split; auto.
          intros g fl Hg. rewrite mfind_mset in Hg. destruct (Z.eqb_spec g f) as [->|]; [|apply (B _ _ Hg)].
          inversion Hg; subst. auto.
        * congruence.
    - unfold addReader. destruct (open s && _); exact Hr. }
  assert (H1 : RInv [f0] (rinit f0) []).
  { constructor; cbn; auto.
    - intros f. destruct (Z.eqb_spec f f0) as [->|]; split; auto; try discriminate.
      intros [->|[]]; contradiction.
    - exists []; auto.
    - intros _. split; auto. intros f fl Hf. destruct (f =? f0)%Z; inversion Hf; auto.
    - discriminate. }
  specialize (HG fs [f0] (rinit f0) H1 eq_refl).
  destruct HG as [Ho Hs Hk Hp Hse Hi Hb]. constructor; auto.
  - intros f. rewrite <- Hk. rewrite in_app_iff, <- in_rev. cbn [In]. tauto.
Qed.

Definition shared (f0 : Z) (fs : list Z) : rdr V := fold_left addReader fs (rinit f0).

(** The released counts of all filters determine how many frames left the queue. *)
Lemma shared_main f0 fs s tr : history (shared f0 fs) s tr -> proper tr -> fixed tr ->
  (forall f x, In (Release f, x) tr -> In f (f0 :: fs)) ->
  (forall f, In f (f0 :: fs) ->
     seen f tr = firstn (length (seen f tr)) (arrived tr) /\
     gone tr <= released f tr <= length (seen f tr) /\ length (seen f tr) <= gone tr + 1) /\
  (exists f, In f (f0 :: fs) /\ released f tr = gone tr).
Proof.
  intros H HP HF HR.
  destruct (history_inv (f0 :: fs) _ s tr (start_inv f0 fs) H HP HF HR) as [Ho Hs Hk Hp Hse Hi Hb].
  destruct (ready s) eqn:Er.
  - destruct (Hi eq_refl) as [_ HA]. split.
    + intros f Hf. split; [auto|]. assert (Hn := Hf). apply Hk in Hn.
      destruct (mfind f (filters s)) as [fl|] eqn:E; [|congruence].
      destruct (HA _ _ E) as (_ & A & B). lia.
    + exists f0. split; [left; reflexivity|].
      assert (Hn : In f0 (f0 :: fs)) by (left; reflexivity). apply Hk in Hn.
      destruct (mfind f0 (filters s)) as [fl|] eqn:E; [|congruence].
      apply (HA _ _ E).
  - destruct (Hb eq_refl) as (_ & HA & (g & gl & Hg & Hne)). split.
    + intros f Hf. split; [auto|]. assert (Hn := Hf). apply Hk in Hn.
      destruct (mfind f (filters s)) as [fl|] eqn:E; [|congruence].
      destruct (HA _ _ E) as [(_ & A & B)|[(_ & A & B)|(_ & A & B)]]; lia.
    + exists g. split; [apply Hk; congruence|].
      destruct (HA _ _ Hg) as [(_ & A & B)|[(_ & A & B)|(Eg & A & B)]]; [exact B|exact B|contradiction].
Qed.

Lemma shared_safe f0 fs s tr : history (shared f0 fs) s tr -> proper tr -> fixed tr ->
  (forall f x, In (Release f, x) tr -> In f (f0 :: fs)) ->
  forall o, match o with
            | Release f => In f (f0 :: fs) /\ released f tr < length (seen f tr)
            | _ => True end -> rdstep s o <> NullDeref.
Proof.
  intros H HP HF HR o Ho.
  pose proof (history_inv (f0 :: fs) _ s tr (start_inv f0 fs) H HP HF HR) as HI.
  destruct o as [v|f|f|f|f]; cbn [rdstep]; try discriminate.
  - destruct (getFrame s f); discriminate.
  - destruct Ho as [H1 H2]. destruct (step_release _ _ _ f HI H1 H2) as (s' & b & E & _).
    rewrite E. discriminate.
  - destruct (disconnect s f); discriminate.
Qed.

(** Frames offered in a round are the same for everybody: a filter that fetches
    gets the oldest frame that has not left the queue. *)
Lemma shared_same_frame f0 fs s tr f s' v b : history (shared f0 fs) s tr -> proper tr -> fixed tr ->
  (forall g x, In (Release g, x) tr -> In g (f0 :: fs)) ->
  In f (f0 :: fs) ->
  gone tr < length (arrived tr) ->
  rdstep s (Get f) = ROk s' (Got v b) ->
  v = nth_error (arrived tr) (gone tr) /\
  (b = true <-> length (seen f tr) = gone tr).
Proof.
  intros H HP HF HR Hfs Hlt Hst.
  pose proof (history_inv (f0 :: fs) _ s tr (start_inv f0 fs) H HP HF HR) as [Ho Hs Hk (d & Hd & Hg) Hse Hi Hb].
  cbn [rdstep] in Hst. unfold getFrame in Hst. rewrite Ho in Hst. cbn [negb] in Hst.
  apply Hk in Hfs. destruct (mfind f (filters s)) as [fl|] eqn:Ef; [|congruence].
  assert (Hpend : pending s <> []).
  { intros E. rewrite Hd, E, app_nil_r in Hlt. lia. }
  assert (Hnth : nth_error (arrived tr) (gone tr) = hd_error (pending s)).
  { rewrite Hd, nth_error_app2 by lia. rewrite Hg, Nat.sub_diag. destruct (pending s); reflexivity. }
  destruct (hd_error (pending s)) as [w|] eqn:Eh; [|destruct (pending s); [congruence|discriminate]].
  destruct (ready s) eqn:Er.
  - destruct (Hi eq_refl) as [Hfr HA]. rewrite Hfr, arm_find, Ef in Hst.
    inversion Hst; subst. split; [congruence|]. split; [intros _; apply (HA _ _ Ef)|auto].
  - destruct (Hb eq_refl) as ((v0 & Hv & Hh) & HA & _). rewrite Hv, Ef in Hst.
    assert (v0 = w) by congruence. subst v0.
    destruct fl as [[|] c]; inversion Hst; subst; (split; [congruence|]);
    destruct (HA _ _ Ef) as [(E & A & B)|[(E & A & B)|(E & A & B)]]; try discriminate;
    split; intros; auto; try discriminate; lia.
Qed.

(** A filter that leaves in the middle of a round, without releasing. *)
Lemma stall_state (m : zmap (bool * bool)) (v : V) : msorted m ->
  (forall f fl, mfind f m = Some fl -> fl = (false, false)) -> forall tr s0 s,
  open s0 = true -> filters s0 = m -> frame s0 = Some v -> ready s0 = false ->
  history s0 s tr -> (forall o x, In (o, x) tr -> match o with Arrive _ | Get _ => True | _ => False end) ->
  (forall f, seen f tr = []) /\ gone tr = 0 /\
  open s = true /\ filters s = m /\ frame s = Some v /\ ready s = false.
Proof.
  intros Hs HA tr s0 s H1 H2 H3 H4 H. induction H as [|s tr o s' x H IH Hst]; intros HO.
  - repeat split; auto.
  - destruct IH as (I1 & I2 & I3 & I4 & I5 & I6).
    { intros o' x' Hin. apply (HO o' x'). apply in_or_app; auto. }
    assert (Hoo : match o with Arrive _ | Get _ => True | _ => False end).
    { apply (HO o x). apply in_or_app; right; left; reflexivity. }
    destruct o as [w|f| | |]; try contradiction; cbn [rdstep] in Hst.
    + inversion Hst; subst. split; [intros f; rewrite seen_snoc, I1; reflexivity|].
      rewrite gone_snoc. cbn. rewrite I2. auto 10.
    + unfold getFrame in Hst. rewrite I3, I5, I6 in Hst. cbn [negb] in Hst.
      assert (Hx : (x = Got None false \/ x = Got (Some v) false) /\ (open s' = true /\ filters s' = m /\ frame s' = Some v /\ ready s' = false)).
      { destruct (mfind f (filters s)) as [fl|] eqn:Ef.
        - rewrite I4 in Ef. rewrite (HA _ _ Ef) in *.
          inversion Hst; subst; cbn. repeat split; auto.
        - inversion Hst; subst; auto 10. }
      destruct Hx as (Hx & Hrest).
      split; [intros g; rewrite seen_snoc, I1; destruct Hx as [->| ->]; reflexivity|].
      rewrite gone_snoc, I2. auto.
Qed.

End Proofs.
