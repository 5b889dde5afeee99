From Coq Require Import Permutation.
From Verif Require Import Base ZMap NetModel NetProofs PipeModel PipeSpec.

Definition safe2 {A} (r : res A) (P : A -> Prop) : Prop :=
  match r with
  | Ok a => P a
  | Bad UseAfterFree | Bad DoubleFree => False
  | Bad _ => True
  end.
Lemma safe2_bind {A B} (r : res A) (f : A -> res B) (P : A -> Prop) (Q : B -> Prop) :
  safe2 r P -> (forall a, r = Ok a -> P a -> safe2 (f a) Q) -> safe2 (bind r f) Q.
Proof. destruct r as [a|b]; cbn; [auto|]. destruct b; auto. Qed.
Lemma safe_safe2 {A} (r : res A) P : safe r P -> safe2 r P.
Proof. destruct r as [a|b]; cbn; [auto|]. destruct b; tauto. Qed.
Lemma safe2_mono {A} (r : res A) (P Q : A -> Prop) : (forall a, P a -> Q a) -> safe2 r P -> safe2 r Q.
Proof. intros H. destruct r as [a|b]; cbn; [apply H|]. destruct b; auto. Qed.

Definition objs (m : zmap filt) : list nat := map (fun kx => fobj (snd kx)) m.
Lemma objs_skel m : objs m = map (fun s => fst (fst (snd s))) (skel m).
Proof. unfold objs, skel. rewrite map_map. reflexivity. Qed.
Lemma keys_skel m : mkeys m = map fst (skel m).
Proof. unfold mkeys, skel. rewrite map_map. reflexivity. Qed.

Lemma skel_find m m' : skel m = skel m' -> forall f, option_map fobj (mfind f m) = option_map fobj (mfind f m').
Proof.
  revert m'. induction m as [|[k x] t IH]; intros [|[k' x'] t'] H f; cbn in H; try discriminate; [reflexivity|].
  inversion H; subst. cbn. destruct (f =? k')%Z; [cbn; congruence|apply IH; assumption].
Qed.
Lemma skel_find2 m m' : skel m = skel m' -> forall f x, mfind f m = Some x -> exists x', mfind f m' = Some x' /\
  fobj x' = fobj x /\ fmaxR x' = fmaxR x /\ fmaxW x' = fmaxW x.
Proof.
  revert m'. induction m as [|[k x] t IH]; intros [|[k' x'] t'] H f y Hf; cbn in H, Hf; try discriminate.
  inversion H; subst. cbn. destruct (f =? k')%Z; [inversion Hf; subst; eauto|apply (IH t' H5 f y Hf)].
Qed.
Lemma skel_mmem m m' : skel m = skel m' -> forall f, mmem f m = mmem f m'.
Proof.
  intros H f. pose proof (skel_find m m' H f) as E. unfold mmem.
  destruct (mfind f m), (mfind f m'); cbn in E; congruence.
Qed.

Record PI (p : pipe) : Prop := {
  pi_wf : WF (pnet p);
  pi_paths : msorted (ppaths p);
  pi_keys : forall k, In k (mkeys (pfilters p)) -> (0 <= k)%Z;
  pi_nodup : NoDup (objs (pfilters p) ++ goneF p);
  pi_lt : forall o, In o (objs (pfilters p) ++ goneF p) -> o < pnext p;
  pi_pool : pfilters p <> [] -> ppool p = true;
  pi_pnodup : NoDup (goneP p);
  pi_plt : forall o, In o (goneP p) -> o < pnext p;
  pi_preg : forall i pa, mfind i (ppaths p) = Some pa -> pobj pa < pnext p;
  pi_pinj : forall i j pa pb, mfind i (ppaths p) = Some pa -> mfind j (ppaths p) = Some pb -> pobj pa = pobj pb -> i = j
}.

Lemma wf_empty : WF (mkNet [] [] []).
Proof.
  constructor.
  - split; cbn; [exact I|intros; discriminate].
  - intros f x r o H; discriminate.
  - intros q. cbn. destruct q; reflexivity.
Qed.
Lemma pi_empty : PI emptyPipe.
Proof.
  constructor; [exact wf_empty|exact I|intros k []|constructor|intros o []|intros H; exfalso; apply H; reflexivity|
    constructor|intros o []|intros; discriminate|intros; discriminate].
Qed.

Lemma pi_withNet p n : PI p -> WF n -> skel (fs n) = skel (pfilters p) -> PI (withNet p n).
Proof.
  intros [H1 H2 H3 H4 H5 H6 H7 H8 H9 H10] Wn Sk.
  assert (Eo : objs (pfilters (withNet p n)) = objs (pfilters p)) by (rewrite !objs_skel; change (pfilters (withNet p n)) with (fs n); rewrite Sk; reflexivity).
  constructor; try assumption.
  - intros k Hk. apply H3. rewrite keys_skel in *. change (pfilters (withNet p n)) with (fs n) in Hk. rewrite Sk in Hk. exact Hk.
  - rewrite Eo. exact H4.
  - rewrite Eo. exact H5.
  - intros Hne. apply H6. intros E. apply Hne. change (pfilters (withNet p n)) with (fs n). rewrite E in Sk. destruct (fs n); [reflexivity|discriminate].
Qed.

(** ** Deleting filters. *)
Lemma objs_mdel m f x : mfind f m = Some x -> exists a b, objs m = a ++ fobj x :: b /\ objs (mdel f m) = a ++ b.
Proof.
  induction m as [|[k y] t IH]; cbn [mfind mdel]; [discriminate|].
  destruct (Z.eqb_spec f k); intros H.
  - inversion H; subst. exists [], (objs t). auto.
  - destruct (IH H) as (a & b & E1 & E2). exists (fobj y :: a), b. cbn. rewrite <- E1, <- E2. auto.
Qed.
Lemma mdel_nil {A} (m : zmap A) k : mdel k m <> [] -> m <> [].
Proof. intros H E. subst. apply H. reflexivity. Qed.

Lemma dropFilter_ok p f : PI p -> ppool p = true -> exists p', dropFilter p f = Ok p' /\ PI p' /\ ppool p' = true /\
  ppaths p' = ppaths p /\ goneP p' = goneP p /\ pfilters p' = mdel f (pfilters p) /\
  goneF p' = (match mfind f (pfilters p) with Some x => [fobj x] | None => [] end) ++ goneF p /\ pnext p' = pnext p.
Proof.
  intros PIp Hp. unfold dropFilter. rewrite Hp. cbn [negb]. destruct (mfind f (pfilters p)) as [x|] eqn:Hf.
  - destruct (objs_mdel _ _ _ Hf) as (a & b & E1 & E2).
    assert (Hno : existsb (Nat.eqb (fobj x)) (goneF p) = false).
    { pose proof (pi_nodup p PIp) as N. rewrite E1 in N. rewrite <- app_assoc in N. cbn in N.
      apply NoDup_remove_2 in N. destruct (existsb _ _) eqn:E; [|reflexivity]. exfalso. apply N.
      apply existsb_exists in E. destruct E as (z & Hz & Ez). apply Nat.eqb_eq in Ez. subst z.
      apply in_or_app. right. apply in_or_app. right. exact Hz. }
    rewrite Hno. destruct (destroyFilter_ok (pnet p) f x (pi_wf p PIp) Hf) as (n' & E & W' & F' & L'). rewrite E. cbn [bind].
    eexists. split; [reflexivity|].
    split; [|repeat (split; [reflexivity || assumption|]); reflexivity].
    destruct PIp as [H1 H2 H3 H4 H5 H6 H7 H8 H9 H10].
    constructor; try assumption.
    + intros k Hk. apply H3. unfold pfilters in Hk. cbn [pnet] in Hk. rewrite F' in Hk. apply mkeys_in. apply mkeys_in in Hk.
      rewrite mfind_mdel in Hk by apply (wf_sorted _ H1). destruct (k =? f)%Z; [congruence|exact Hk].
    + unfold pfilters. cbn [pnet goneF]. rewrite F'. change (fs (pnet p)) with (pfilters p). rewrite E2. rewrite E1 in H4.
      rewrite <- app_assoc in *. cbn in H4. apply NoDup_remove in H4. destruct H4 as [A B].
      rewrite app_assoc. apply NoDup_Add with (a := fobj x) (l := (a ++ b) ++ goneF p); [apply Add_app|].
      rewrite <- app_assoc. split; assumption.
    + unfold pfilters. cbn [pnet goneF pnext]. rewrite F'. change (fs (pnet p)) with (pfilters p). rewrite E2. intros o Ho. apply H5.
      rewrite E1. rewrite !in_app_iff in *. cbn in *. tauto.
    + intros Hne. cbn. reflexivity.
  - exists p. split; [reflexivity|]. split; [exact PIp|]. split; [exact Hp|]. split; [reflexivity|]. split; [reflexivity|].
    split; [symmetry; apply mdel_absent; exact Hf|]. split; reflexivity.
Qed.

Lemma objOf_mdel p p' f : WF (pnet p) -> pfilters p' = mdel f (pfilters p) ->
  forall g, objOf p' g = if (g =? f)%Z then None else objOf p g.
Proof.
  intros W E g. unfold objOf. rewrite E, mfind_mdel by apply (wf_sorted _ W). destruct (g =? f)%Z; reflexivity.
Qed.

Lemma disc_case n e f r x : WF n -> mfind f (fs n) = Some x ->
  safe (disconnectReader n e f r) (fun a => WF (fst a) /\ skel (fs (fst a)) = skel (fs n) /\ rd_shrink n (fst a)).
Proof.
  intros WFn Hf. destruct (mfind r (frd x)) as [[o|]|] eqn:Hr.
  - destruct (disconnectReader_ok n e f r x WFn Hf) as (n' & b & E & W & L & F); [congruence|]. rewrite E. cbn.
    split; [exact W|]. destruct F as [F|F].
    + rewrite F. split; [reflexivity|]. destruct n' as [a1 a2 a3]. cbn in F. subst. intros h y Hy. exists y. auto.
    + rewrite F. split; [apply (skel_mset (fs n) None f x); auto; apply (wf_sorted n WFn)|].
      destruct n' as [a1 a2 a3]. cbn in F. subst. apply rd_shrink_del. exact Hf.
  - unfold disconnectReader, getF. rewrite Hf. cbn [bind]. rewrite Hr. exact I.
  - unfold disconnectReader, getF. rewrite Hf. cbn [bind]. rewrite Hr. cbn. split; [exact WFn|]. split; [reflexivity|apply rd_shrink_refl].
Qed.
Lemma disc_none n e f r : mfind f (fs n) = None -> disconnectReader n e f r = Bad NullDeref.
Proof. intros H. unfold disconnectReader, getF. rewrite H. reflexivity. Qed.

(** What deleting things leaves alone. *)
Record keeps (p p' : pipe) : Prop := {
  k_paths : ppaths p' = ppaths p;
  k_goneP : goneP p' = goneP p;
  k_pool : ppool p' = ppool p;
  k_next : pnext p' = pnext p
}.

(** Filters only disappear, and every one that does is logged. *)
Definition counted (p p' : pipe) : Prop :=
  Permutation (objs (pfilters p') ++ goneF p') (objs (pfilters p) ++ goneF p).

Lemma counted_refl p p' : pfilters p' = pfilters p -> goneF p' = goneF p -> counted p p'.
Proof. unfold counted. intros -> ->. reflexivity. Qed.
Lemma counted_trans a b c : counted a b -> counted b c -> counted a c.
Proof. unfold counted. intros H1 H2. rewrite H2. exact H1. Qed.
Lemma counted_drop p p' f : pfilters p' = mdel f (pfilters p) ->
  goneF p' = (match mfind f (pfilters p) with Some x => [fobj x] | None => [] end) ++ goneF p -> counted p p'.
Proof.
  intros E1 E2. unfold counted. rewrite E1, E2. destruct (mfind f (pfilters p)) as [x|] eqn:Hf.
  - destruct (objs_mdel _ _ _ Hf) as (a & b & A & B). rewrite A, B, <- !app_assoc. cbn [app].
    apply Permutation_app_head. symmetry. apply Permutation_middle.
  - rewrite mdel_absent by exact Hf. reflexivity.
Qed.
Lemma counted_skel p p' : skel (pfilters p') = skel (pfilters p) -> goneF p' = goneF p -> counted p p'.
Proof. unfold counted. intros H ->. rewrite !objs_skel, H. reflexivity. Qed.
Lemma counted_length p p' : counted p p' -> length (pfilters p') + length (goneF p') = length (pfilters p) + length (goneF p).
Proof. unfold counted. intros H. apply Permutation_length in H. rewrite !app_length in H. unfold objs in H. rewrite !map_length in H. exact H. Qed.
Lemma skel_length m m' : skel m = skel m' -> length m = length m'.
Proof. intros H. apply (f_equal (@length _)) in H. unfold skel in H. rewrite !map_length in H. exact H. Qed.

Lemma dropMids_safe p e l : PI p -> ppool p = true ->
  safe2 (dropMids p e l) (fun p' => PI p' /\ keeps p p' /\ counted p p' /\
    (forall g, objOf p' g = if existsb (Z.eqb g) l then None else objOf p g)).
Proof.
  revert p. induction l as [|m t IH]; intros p PIp Hp; cbn [dropMids].
  - cbn. split; [exact PIp|]. split; [constructor; reflexivity|]. split; [apply counted_refl; reflexivity|]. reflexivity.
  - destruct (mfind m (pfilters p)) as [x|] eqn:Hm.
    2:{ rewrite disc_none by exact Hm. exact I. }
    eapply safe2_bind; [apply safe_safe2, (disc_case (pnet p) e m DEFAULT_ID x (pi_wf p PIp) Hm)|].
    intros [n b] E (W & Sk & _). cbn [fst] in *.
    pose proof (pi_withNet p n PIp W Sk) as PI1.
    destruct (dropFilter_ok (withNet p n) m PI1 Hp) as (p1 & E1 & PI2 & Hp1 & A1 & A2 & A3 & A4 & A5). rewrite E1. cbn [bind].
    eapply safe2_mono; [|apply (IH p1 PI2 Hp1)]. intros p' (B1 & B2 & B3 & B4).
    split; [exact B1|]. split; [|split].
    + destruct B2 as [C1 C2 C3 C4]. cbn in *. constructor; congruence.
    + eapply counted_trans; [|exact B3]. eapply counted_trans; [|apply (counted_drop (withNet p n) p1 m A3 A4)].
      apply counted_skel; [exact Sk|reflexivity].
    + intros g. rewrite B4. cbn [existsb]. rewrite (objOf_mdel (withNet p n) p1 m W A3 g).
      destruct (existsb (Z.eqb g) t); [rewrite orb_true_r; reflexivity|]. rewrite orb_false_r.
      destruct (g =? m)%Z; [reflexivity|]. unfold objOf. apply skel_find. exact Sk.
Qed.

Definition used_by_other (p : pipe) (id f : Z) : Prop := exists i pa, i <> id /\ mfind i (ppaths p) = Some pa /\ names pa f.
Lemma hasFilter_names pa f : hasFilter pa f = true <-> names pa f.
Proof.
  unfold hasFilter, names. rewrite !orb_true_iff, existsb_exists, !Z.eqb_eq. split.
  - intros [[(x & Hx & Ex)|H]|H]; auto. apply Z.eqb_eq in Ex. subst. auto.
  - intros [H|[H|H]]; auto. left. left. exists f. split; [exact H|apply Z.eqb_refl].
Qed.
Lemma usedBy_spec p skip f : forall l u, usedBy p l skip f = Ok u ->
  (u = true <-> exists i pa, In (i, pa) l /\ (match skip with Some s => i <> s | None => True end) /\ names pa f).
Proof.
  induction l as [|[i pa] t IH]; intros u H; cbn [usedBy] in H.
  - inversion H; subst. split; [discriminate|]. intros (i & pa & [] & _).
  - destruct (match skip with Some s => (i =? s)%Z | None => false end) eqn:Es.
    + rewrite (IH u H). split; intros (j & pb & Hj & Hs & Hn).
      * exists j, pb. split; [right; exact Hj|auto].
      * destruct Hj as [Ej|Hj]; [|exists j, pb; auto]. inversion Ej; subst. destruct skip as [s|]; [|discriminate].
        apply Z.eqb_eq in Es. contradiction.
    + destruct (negb (pathLive p pa)); [discriminate|]. destruct (hasFilter pa f) eqn:Eh.
      * apply bind_ok in H. destruct H as (v & _ & H). inversion H; subst. split; [intros _|reflexivity].
        exists i, pa. split; [left; reflexivity|]. split; [|apply hasFilter_names; exact Eh].
        destruct skip as [s|]; [|exact I]. apply Z.eqb_neq. exact Es.
      * rewrite (IH u H). split; intros (j & pb & Hj & Hs & Hn).
        -- exists j, pb. split; [right; exact Hj|auto].
        -- destruct Hj as [Ej|Hj]; [|exists j, pb; auto]. inversion Ej; subst. apply hasFilter_names in Hn. congruence.
Qed.
Lemma usedBy_safe p skip f l : safe2 (usedBy p l skip f) (fun _ => True).
Proof.
  induction l as [|[i pa] t IH]; cbn [usedBy]; [exact I|].
  destruct (match skip with Some s => (i =? s)%Z | None => false end); [exact IH|].
  destruct (negb (pathLive p pa)); [exact I|]. destruct (hasFilter pa f); [|exact IH].
  eapply safe2_bind; [exact IH|]. intros; exact I.
Qed.

Lemma usedBy_other p id f u : msorted (ppaths p) -> usedBy p (ppaths p) (Some id) f = Ok u -> (u = true <-> used_by_other p id f).
Proof.
  intros S H. rewrite (usedBy_spec p (Some id) f _ _ H). unfold used_by_other. split; intros (i & pa & A & B & C).
  - exists i, pa. split; [exact B|]. split; [|exact C]. apply (In_mfind (ppaths p) None); assumption.
  - exists i, pa. split; [apply mfind_In; exact B|]. auto.
Qed.

Definition sometimes_drop (b : bool) (p p' : pipe) (f : Z) : Prop :=
  forall g, objOf p' g = if negb b && (g =? f)%Z then None else objOf p g.

Lemma maybe_drop p b f : PI p -> ppool p = true -> exists p', (if b : bool then Ok p else dropFilter p f) = Ok p' /\ PI p' /\
  keeps p p' /\ counted p p' /\ (forall g, objOf p' g = if negb b && (g =? f)%Z then None else objOf p g).
Proof.
  intros PIp Hp. destruct b.
  - exists p. split; [reflexivity|]. split; [exact PIp|]. split; [constructor; reflexivity|].
    split; [apply counted_refl; reflexivity|reflexivity].
  - destruct (dropFilter_ok p f PIp Hp) as (p1 & E1 & PI2 & Hp1 & A1 & A2 & A3 & A4 & A5). exists p1.
    split; [exact E1|]. split; [exact PI2|]. split; [constructor; congruence|]. split; [apply (counted_drop p p1 f A3 A4)|].
    intros g. cbn. apply (objOf_mdel p p1 f (pi_wf p PIp) A3).
Qed.

(** deletePath, in full. *)
Definition gone_with (p : pipe) (id : Z) (pa : path) (g : Z) : Prop :=
  In g (pmid pa) \/ (g = pdst pa /\ ~ used_by_other p id g) \/ (g = porg pa /\ ~ used_by_other p id g).

Lemma pi_goneP p o : PI p -> o < pnext p -> ~ In o (goneP p) ->
  PI (mkPipe (pnet p) (ppaths p) (ppool p) (pnext p) (goneF p) (o :: goneP p)).
Proof.
  intros [H1 H2 H3 H4 H5 H6 H7 H8 H9 H10] Ho Hn. constructor; try assumption; cbn.
  - constructor; assumption.
  - intros x [<-|Hx]; [exact Ho|apply H8, Hx].
Qed.

Lemma deletePath_safe p e id : PI p ->
  safe2 (deletePath p e id) (fun a => let '(p', ok) := a in PI p' /\ ppaths p' = ppaths p /\ ppool p' = ppool p /\
     pnext p' = pnext p /\ counted p p' /\
     (ok = false -> goneP p' = goneP p /\ goneF p' = goneF p /\ skel (pfilters p') = skel (pfilters p)) /\
     (ok = true -> exists pa, mfind id (ppaths p) = Some pa /\ ~ In (pobj pa) (goneP p) /\ goneP p' = pobj pa :: goneP p /\
        (forall f, names pa f -> objOf p f <> None) /\
        (forall g, gone_with p id pa g -> objOf p' g = None) /\
        (forall g, ~ gone_with p id pa g -> objOf p' g = objOf p g))).
Proof.
  intros PIp. unfold deletePath. destruct (mfind id (ppaths p)) as [pa|] eqn:Hid.
  2:{ cbn. split; [exact PIp|]. do 3 (split; [reflexivity|]). split; [apply counted_refl; reflexivity|]. split; [auto|discriminate]. }
  destruct (negb (pathLive p pa)) eqn:Elive; [exact I|].
  assert (Hlive : ~ In (pobj pa) (goneP p)).
  { apply negb_false_iff in Elive. unfold pathLive in Elive. apply negb_true_iff in Elive. intros Hin.
    assert (existsb (Nat.eqb (pobj pa)) (goneP p) = true); [|congruence].
    apply existsb_exists. exists (pobj pa). split; [exact Hin|apply Nat.eqb_refl]. }
  assert (HF : forall r : res (pipe * bool), r = Ok (p, false) -> safe2 r (fun a => let '(p', ok) := a in PI p' /\ ppaths p' = ppaths p /\ ppool p' = ppool p /\
     pnext p' = pnext p /\ counted p p' /\
     (ok = false -> goneP p' = goneP p /\ goneF p' = goneF p /\ skel (pfilters p') = skel (pfilters p)) /\
     (ok = true -> exists pa0, Some pa = Some pa0 /\ ~ In (pobj pa0) (goneP p) /\ goneP p' = pobj pa0 :: goneP p /\
        (forall f, names pa0 f -> objOf p f <> None) /\
        (forall g, gone_with p id pa0 g -> objOf p' g = None) /\
        (forall g, ~ gone_with p id pa0 g -> objOf p' g = objOf p g)))).
  { intros r ->. cbn. split; [exact PIp|]. do 3 (split; [reflexivity|]). split; [apply counted_refl; reflexivity|]. split; [auto|discriminate]. }
  destruct (negb (mmem (porg pa) (pfilters p)) || negb (mmem (pdst pa) (pfilters p))) eqn:Eod; [apply HF; reflexivity|].
  destruct (negb (forallb (fun m => mmem m (pfilters p)) (pmid pa))) eqn:Em; [apply HF; reflexivity|]. clear HF.
  apply orb_false_iff in Eod. destruct Eod as [Eo Ed]. apply negb_false_iff in Eo, Ed, Em.
  rewrite forallb_forall in Em.
  assert (Hnames : forall f, names pa f -> objOf p f <> None).
  { intros f Hf. assert (mmem f (pfilters p) = true).
    { destruct Hf as [->|[->|Hf]]; [exact Eo|exact Ed|apply Em, Hf]. }
    unfold mmem in H. unfold objOf. destruct (mfind f (pfilters p)); [discriminate|discriminate]. }
  unfold mmem in Ed. destruct (mfind (pdst pa) (pfilters p)) as [xd|] eqn:Hd; [|discriminate].
  assert (Hp : ppool p = true).
  { apply (pi_pool p PIp). intros E. rewrite E in Hd. discriminate. }
  eapply safe2_bind; [apply safe_safe2, (disc_case (pnet p) e (pdst pa) (pdr pa) xd (pi_wf p PIp) Hd)|].
  intros [n1 ok1] E1 (W1 & Sk1 & _). cbn [fst] in *.
  pose proof (pi_withNet p n1 PIp W1 Sk1) as PI1.
  assert (C1 : counted p (withNet p n1)) by (apply counted_skel; [exact Sk1|reflexivity]).
  destruct ok1; cbn [negb].
  2:{ cbn. split; [exact PI1|]. do 3 (split; [reflexivity|]). split; [exact C1|]. split; [auto|discriminate]. }
  eapply safe2_bind; [apply (dropMids_safe (withNet p n1) e (rev (pmid pa)) PI1 Hp)|].
  intros p2 _ (PI2 & [K1 K2 K3 K4] & C2 & O2). cbn in K1, K2, K3, K4.
  eapply safe2_bind; [apply usedBy_safe|]. intros uo Huo _.
  eapply safe2_bind; [apply usedBy_safe|]. intros ud Hud _.
  apply (usedBy_other p2 id _ _ (pi_paths p2 PI2)) in Huo. apply (usedBy_other p2 id _ _ (pi_paths p2 PI2)) in Hud.
  assert (Hub : forall f, used_by_other p2 id f <-> used_by_other p id f) by (intros f; unfold used_by_other; rewrite K1; reflexivity).
  rewrite Hub in Huo, Hud.
  destruct (maybe_drop p2 ud (pdst pa) PI2) as (p3 & E3 & PI3 & [L1 L2 L3 L4] & C3 & O3); [congruence|]. rewrite E3. cbn [bind].
  destruct (maybe_drop p3 uo (porg pa) PI3) as (p4 & E4 & PI4 & [M1 M2 M3 M4] & C4 & O4); [congruence|]. rewrite E4. cbn [bind].
  cbn [safe2]. split.
  { apply pi_goneP; [exact PI4| |].
    - rewrite M4, L4, K4. apply (pi_preg p PIp id pa Hid).
    - rewrite M2, L2, K2. exact Hlive. }
  cbn [ppaths ppool pnext goneP goneF pfilters pnet].
  split; [congruence|]. split; [congruence|]. split; [congruence|].
  split. { apply (counted_trans p (withNet p n1)); [exact C1|]. apply (counted_trans _ p2); [exact C2|].
           apply (counted_trans _ p3); [exact C3|]. exact C4. }
  split; [discriminate|]. intros _. exists pa. split; [reflexivity|]. split; [exact Hlive|].
  split; [rewrite M2, L2, K2; reflexivity|]. split; [exact Hnames|].
  assert (Hobj : forall g, objOf (mkPipe (pnet p4) (ppaths p4) (ppool p4) (pnext p4) (goneF p4) (pobj pa :: goneP p4)) g =
     if negb uo && (g =? porg pa)%Z then None else if negb ud && (g =? pdst pa)%Z then None else
     if existsb (Z.eqb g) (rev (pmid pa)) then None else objOf p g).
  { intros g. change (objOf p4 g = if negb uo && (g =? porg pa)%Z then None else if negb ud && (g =? pdst pa)%Z then None else
     if existsb (Z.eqb g) (rev (pmid pa)) then None else objOf p g).
    rewrite O4, O3, O2. destruct (negb uo && (g =? porg pa)%Z); [reflexivity|].
    destruct (negb ud && (g =? pdst pa)%Z); [reflexivity|]. destruct (existsb (Z.eqb g) (rev (pmid pa))); [reflexivity|].
    unfold objOf. apply skel_find. exact Sk1. }
  assert (Hmid : forall g, existsb (Z.eqb g) (rev (pmid pa)) = true <-> In g (pmid pa)).
  { intros g. rewrite existsb_exists. split.
    - intros (x & Hx & Ex). apply Z.eqb_eq in Ex. subst x. apply in_rev. exact Hx.
    - intros Hg. exists g. split; [apply in_rev in Hg; exact Hg|apply Z.eqb_refl]. }
  split; intros g Hg; rewrite Hobj; clear Hobj.
  - destruct (negb uo && (g =? porg pa)%Z) eqn:A1; [reflexivity|]. destruct (negb ud && (g =? pdst pa)%Z) eqn:A2; [reflexivity|].
    destruct Hg as [Hg|[[-> Hg]|[-> Hg]]].
    + apply Hmid in Hg. rewrite Hg. reflexivity.
    + exfalso. rewrite Z.eqb_refl, andb_true_r in A2. apply negb_false_iff in A2. apply Hg, Hud, A2.
    + exfalso. rewrite Z.eqb_refl, andb_true_r in A1. apply negb_false_iff in A1. apply Hg, Huo, A1.
  - destruct (negb uo && (g =? porg pa)%Z) eqn:A1.
    { exfalso. apply Hg. apply andb_true_iff in A1. destruct A1 as [A B]. apply Z.eqb_eq in B. subst g.
      right. right. split; [reflexivity|]. intros H. apply Huo in H. rewrite H in A. discriminate. }
    destruct (negb ud && (g =? pdst pa)%Z) eqn:A2.
    { exfalso. apply Hg. apply andb_true_iff in A2. destruct A2 as [A B]. apply Z.eqb_eq in B. subst g.
      right. left. split; [reflexivity|]. intros H. apply Hud in H. rewrite H in A. discriminate. }
    destruct (existsb (Z.eqb g) (rev (pmid pa))) eqn:A3; [|reflexivity].
    exfalso. apply Hg. left. apply Hmid. exact A3.
Qed.

(** ** Connections only grow when something is connected. *)
Definition grows (n n' : net) : Prop :=
  (forall f x, mfind f (fs n) = Some x -> exists x', mfind f (fs n') = Some x' /\
     (forall w q, mfind w (fwr x) = Some (Some q) -> mfind w (fwr x') = Some (Some q)) /\
     (forall r o, mfind r (frd x) = Some (Some o) -> mfind r (frd x') = Some (Some o))) /\
  (forall o z, nth_error (rds n) o = Some z -> exists z', nth_error (rds n') o = Some z' /\ rq z' = rq z /\ incl (rfs z) (rfs z')) /\
  (forall q k, nth_error (qs n) q = Some k -> exists k', nth_error (qs n') q = Some k' /\ qlive k' = qlive k /\ qconn k' = qconn k).

Lemma grows_refl n : grows n n.
Proof. split; [|split]; intros; eexists; (split; [eassumption|]); auto with datatypes. Qed.
Lemma grows_trans a b c : grows a b -> grows b c -> grows a c.
Proof.
  intros (A1 & A2 & A3) (B1 & B2 & B3). split; [|split].
  - intros f x H. destruct (A1 f x H) as (x1 & C1 & C2 & C3). destruct (B1 f x1 C1) as (x2 & D1 & D2 & D3).
    exists x2. split; [exact D1|]. split; auto.
  - intros o z H. destruct (A2 o z H) as (z1 & C1 & C2 & C3). destruct (B2 o z1 C1) as (z2 & D1 & D2 & D3).
    exists z2. split; [exact D1|]. split; [congruence|]. intros i Hi. apply D3, C3, Hi.
  - intros q k H. destruct (A3 q k H) as (k1 & C1 & C2 & C3). destruct (B3 q k1 C1) as (k2 & D1 & D2 & D3).
    exists k2. split; [exact D1|]. split; congruence.
Qed.
Lemma grows_connected n n' : grows n n' -> forall f w g r, connected n f w g r -> connected n' f w g r.
Proof.
  intros (A1 & A2 & A3) f w g r (x & y & q & o & z & k & H1 & H2 & H3 & H4 & H5 & H6 & H7 & H8 & H9 & H10).
  destruct (A1 f x H1) as (x1 & C1 & C2 & _). destruct (A1 g y H3) as (y1 & D1 & _ & D3).
  destruct (A2 o z H5) as (z1 & E1 & E2 & E3). destruct (A3 q k H8) as (k1 & F1 & F2 & F3).
  exists x1, y1, q, o, z1, k1. repeat split; auto; try congruence.
Qed.

(** Replacing the entry of one filter by one with at least the same live entries. *)
Lemma grows_putF n f x x' : mfind f (fs n) = Some x ->
  (forall w q, mfind w (fwr x) = Some (Some q) -> mfind w (fwr x') = Some (Some q)) ->
  (forall r o, mfind r (frd x) = Some (Some o) -> mfind r (frd x') = Some (Some o)) -> grows n (putF n f x').
Proof.
  intros Hf H1 H2. split; [|split]; [|intros; eexists; (split; [eassumption|]); auto with datatypes..].
  intros h y Hy. cbn. rewrite mfind_mset. destruct (Z.eqb_spec h f) as [->|].
  - rewrite Hf in Hy. inversion Hy; subst. eauto.
  - eauto.
Qed.
Lemma grows_newR n z : grows n (mkNet (fs n) (rds n ++ [z]) (qs n)).
Proof.
  split; [|split]; intros; eexists; cbn; (split; [try eassumption|]); auto with datatypes.
  rewrite nth_error_app1; [eassumption|]. apply nth_error_Some. congruence.
Qed.
Lemma grows_newQ n k : grows n (mkNet (fs n) (rds n) (qs n ++ [k])).
Proof.
  split; [|split]; intros; eexists; cbn; (split; [try eassumption|]); auto with datatypes.
  rewrite nth_error_app1; [eassumption|]. apply nth_error_Some. congruence.
Qed.

Lemma deleteNew n e f w x n' b : mfind f (fs n) = Some x -> mfind w (fwr x) = Some None ->
  deleteWriter n e f w = Ok (n', b) -> n' = putF n f (setWr x (mdel w (fwr x))).
Proof.
  intros Hf Hw. unfold deleteWriter, eraseWriter, getF. rewrite Hf. cbn [bind]. rewrite !Hw. cbn.
  intros H. inversion H. reflexivity.
Qed.

(** What a connect does to the tables, whatever its outcome. *)
Lemma connect_grows n e f w g r n' b : WF n -> connect n e f w g r = Ok (n', b) ->
  grows n n' /\ (b = false -> forall x, mfind f (fs n) = Some x -> mfind w (fwr x) = None ->
                  exists x', mfind f (fs n') = Some x' /\ mfind w (fwr x') = None).
Proof.
  intros WFn H. unfold connect in H. destruct (Z.eqb_spec f g) as [|Hfg]; [discriminate|].
  apply bind_ok in H. destruct H as (y & Hy & H). unfold getF in Hy. destruct (mfind g (fs n)) as [y'|] eqn:Hg; [|discriminate].
  inversion Hy; subst y'. clear Hy.
  apply bind_ok in H. destruct H as (busy & _ & H). destruct busy; [inversion H; subst; split; [apply grows_refl|eauto]|].
  apply bind_ok in H. destruct H as ([n1 b1] & H1 & H).
  destruct (mfind f (fs n)) as [x|] eqn:Hf.
  2:{ unfold setWriter, getF in H1. rewrite Hf in H1. discriminate. }
  destruct (setWriter_ok n e f w x WFn Hf) as (b2 & Ew & Hw). rewrite Ew in H1. inversion H1; subst n1 b1. clear H1 Ew.
  destruct b2; cbn [negb] in H.
  2:{ inversion H; subst. split; [apply grows_refl|]. intros _ x0 E. inversion E; subst. eauto. }
  specialize (Hw eq_refl). set (x1 := setWr x (mset w None (fwr x))) in *.
  assert (G1 : grows n (putF n f x1)).
  { apply (grows_putF n f x); [exact Hf| |auto]. intros w0 q Hq. cbn. rewrite mfind_mset. destruct (Z.eqb_spec w0 w); [congruence|exact Hq]. }
  assert (Hf1 : mfind f (fs (putF n f x1)) = Some x1) by (cbn; apply mfind_mset_eq).
  assert (Hx1 : mfind w (fwr x1) = Some None) by (cbn; apply mfind_mset_eq).
  assert (Sx1 : msorted (fwr x1)) by (cbn; apply msorted_mset; apply (proj2 (wf_sorted n WFn) f x Hf)).
  clearbody x1.
  assert (DEL : forall m n2 b2, mfind f (fs m) = Some x1 -> grows (putF n f x1) m -> deleteWriter m e f w = Ok (n2, b2) ->
     grows n n2 /\ exists x', mfind f (fs n2) = Some x' /\ mfind w (fwr x') = None).
  { intros m n2 b2 Hm Gm E. apply (deleteNew m e f w x1 n2 b2 Hm Hx1) in E. subst n2. split.
    - apply (grows_trans _ m); [apply (grows_trans _ _ _ G1 Gm)|]. apply (grows_putF m f x1); [exact Hm| |auto].
      intros w0 q Hq. cbn [fwr setWr]. rewrite mfind_mdel by exact Sx1.
      destruct (Z.eqb_spec w0 w); [congruence|exact Hq].
    - eexists. split; [cbn [putF fs]; apply mfind_mset_eq|].
      cbn [fwr setWr]. rewrite mfind_mdel by exact Sx1. rewrite Z.eqb_refl. reflexivity. }
  destruct (aq e f); cbn [negb] in H.
  2:{ apply bind_ok in H. destruct H as ([n2 b2] & H2 & H). inversion H; subst.
      destruct (DEL _ _ _ Hf1 (grows_refl _) H2) as [A B]. auto. }
  set (n2 := mkNet (fs (putF n f x1)) (rds (putF n f x1)) (qs (putF n f x1) ++ [mkQ true false (f, w) [(g, r)]])) in *.
  assert (G2 : grows (putF n f x1) n2) by apply grows_newQ.
  apply bind_ok in H. destruct H as ([n3 o] & H3 & H).
  assert (Hg2 : mfind g (fs n2) = Some y) by (cbn; rewrite mfind_mset_neq by congruence; exact Hg).
  unfold setReader, getF in H3. rewrite Hg2 in H3. cbn [bind] in H3.
  destruct ((fmaxR y <=? length (frd y)) || mmem r (frd y)) eqn:Efull.
  { inversion H3; subst. apply bind_ok in H. destruct H as ([n4 b4] & H4 & H). inversion H; subst.
    destruct (DEL n2 n' b4 Hf1 G2 H4) as [A B]. auto. }
  apply orb_false_iff in Efull. destruct Efull as [_ Ef2].
  assert (Hnr : mfind r (frd y) = None) by (unfold mmem in Ef2; destruct (mfind r (frd y)); [discriminate|reflexivity]).
  assert (G3 : forall v, grows n2 (putF n2 g (setRd y (mset r v (frd y))))).
  { intros v. apply (grows_putF n2 g y); [exact Hg2|auto|]. intros r0 o0 Ho. cbn. rewrite mfind_mset.
    destruct (Z.eqb_spec r0 r); [congruence|exact Ho]. }
  destruct (rcfg e g r).
  2:{ inversion H3; subst. apply bind_ok in H. destruct H as ([n4 b4] & H4 & H). inversion H; subst.
      destruct (DEL (putF n2 g (setRd y (mset r None (frd y)))) n' b4) as [A B]; auto.
      - cbn. rewrite mfind_mset_neq by congruence. exact Hf1.
      - apply (grows_trans _ _ _ G2 (G3 None)). }
  inversion H3; subst n3 o. clear H3.
  apply bind_ok in H. destruct H as (x2 & Hx2 & H). apply bind_ok in H. destruct H as (k & Hk & H). inversion H; subst. clear H.
  split; [|discriminate].
  set (m3 := mkNet (mset g (setRd y (mset r (Some (length (rds n2))) (frd y))) (fs n2)) (rds n2 ++ [mkR None []]) (qs n2)) in *.
  assert (Gm3 : grows n m3).
  { apply (grows_trans _ _ _ G1). apply (grows_trans _ _ _ G2). apply (grows_trans _ _ _ (G3 (Some (length (rds n2))))).
    exact (grows_newR (putF n2 g (setRd y (mset r (Some (length (rds n2))) (frd y)))) (mkR None [])). }
  assert (Ex2 : x2 = x1).
  { unfold getF in Hx2. cbn [fs] in Hx2. rewrite mfind_mset_neq, mfind_mset_eq in Hx2 by congruence. congruence. }
  subst x2. destruct Gm3 as (A1 & A2 & A3). split; [|split]; cbn [putQ putR putF fs rds qs].
  - intros h z Hz. destruct (A1 h z Hz) as (z1 & B1 & B2 & B3). rewrite mfind_mset. destruct (Z.eqb_spec h f) as [->|]; [|eauto].
    assert (z1 = x1). { unfold m3 in B1. cbn [fs] in B1. rewrite mfind_mset_neq in B1 by congruence. cbn [n2 putF fs] in B1. rewrite mfind_mset_eq in B1. congruence. }
    subst z1. eexists. split; [reflexivity|]. split; [|exact B3]. intros w0 q0 Hq0. cbn [fwr setWr]. rewrite mfind_mset.
    destruct (Z.eqb_spec w0 w); [|apply B2, Hq0]. subst w0. rewrite Hf in Hz. inversion Hz; subst z. congruence.
  - intros o z Hz. destruct (A2 o z Hz) as (z1 & B1 & B2). rewrite nth_error_upd_neq; [eauto|].
    intros E. subst o. assert (length (rds n) < length (rds n)) by (apply nth_error_Some; rewrite Hz; discriminate). lia.
  - intros q z Hz. destruct (A3 q z Hz) as (z1 & B1 & B2). rewrite nth_error_upd_neq; [eauto|].
    intros E. subst q. assert (length (qs n) < length (qs n)) by (apply nth_error_Some; cbn in Hz; rewrite Hz; discriminate). lia.
Qed.

Definition keepsConn (n n' : net) : Prop := forall f w g r, connected n f w g r -> connected n' f w g r.
Lemma keepsConn_refl n : keepsConn n n.
Proof. intros f w g r H. exact H. Qed.
Lemma keepsConn_trans a b c : keepsConn a b -> keepsConn b c -> keepsConn a c.
Proof. intros H1 H2 f w g r H. apply H2, H1, H. Qed.

(** A released Reader leaves connected queues alone. *)
Lemma releaseReader_keeps n p n' : (forall o x q k, p = Some o -> nth_error (rds n) o = Some x -> rq x = Some q ->
     nth_error (qs n) q = Some k -> qconn k = false) ->
  releaseReader n p = Ok n' -> fs n' = fs n /\
  (forall o z q k, nth_error (rds n) o = Some z -> rq z = Some q -> nth_error (qs n) q = Some k -> qconn k = true ->
     nth_error (rds n') o = Some z /\ nth_error (qs n') q = Some k).
Proof.
  intros Hp H. destruct p as [o|]; cbn [releaseReader] in H; [|inversion H; subst; auto].
  destruct (referenced n o); [inversion H; subst; auto|].
  apply bind_ok in H. destruct H as (x & Hx & H). unfold getR in Hx. destruct (nth_error (rds n) o) as [x'|] eqn:Eo; [|discriminate].
  inversion Hx; subst x'. apply bind_ok in H. destruct H as ([n1 b1] & H1 & H). inversion H; subst. clear H.
  destruct (rq x) as [q|] eqn:Eq; cbn [dropQueue] in H1.
  - apply bind_ok in H1. destruct H1 as (k & Hk & H1). unfold getQ in Hk. destruct (nth_error (qs n) q) as [k'|] eqn:Ek; [|discriminate].
    destruct (qlive k'); [|discriminate]. inversion Hk; subst k'.
    rewrite (Hp o x q k eq_refl Eo Eq Ek) in H1. inversion H1; subst. split; [reflexivity|].
    intros o0 z q0 k0 A B C D. cbn. split.
    + rewrite nth_error_upd_neq; [exact A|]. intros ->. rewrite Eo in A. inversion A; subst z. rewrite Eq in B. inversion B; subst q0.
      rewrite Ek in C. inversion C; subst k0. rewrite (Hp o0 x q k eq_refl Eo Eq Ek) in D. discriminate.
    + rewrite nth_error_upd_neq; [exact C|]. intros ->. rewrite Ek in C. inversion C; subst k0.
      rewrite (Hp o x q0 k eq_refl Eo Eq Ek) in D. discriminate.
  - inversion H1; subst. split; [reflexivity|]. intros o0 z q0 k0 A B C D. cbn. split; [|exact C].
    rewrite nth_error_upd_neq; [exact A|]. intros ->. rewrite Eo in A. inversion A; subst z. congruence.
Qed.

Lemma shareReader_keeps n e f r g s n' b : WF n -> shareReader n e f r g s = Ok (n', b) -> keepsConn n n'.
Proof.
  intros WFn H. unfold shareReader in H. destruct (f =? g)%Z; [inversion H; apply keepsConn_refl|].
  apply bind_ok in H. destruct H as (x & Hx & H). destruct (mfind r (frd x)) as [p|] eqn:Hr; [|inversion H; apply keepsConn_refl].
  apply bind_ok in H. destruct H as (c & Hc & H). destruct c; cbn [negb] in H; [|inversion H; subst; apply keepsConn_refl].
  apply bind_ok in H. destruct H as (d & Hd & H). destruct d; [inversion H; apply keepsConn_refl|].
  destruct (rcfg e g s); cbn [negb] in H; [|inversion H; apply keepsConn_refl].
  apply bind_ok in H. destruct H as (y & Hy & H). apply bind_ok in H. destruct H as (n1 & H1 & H).
  unfold getF in Hy. destruct (mfind g (fs n)) as [y'|] eqn:Hg; [|discriminate]. inversion Hy; subst y'. clear Hy.
  (* the entry that is replaced is not connected *)
  assert (Hold : forall o x0 q k, mfind s (frd y) = Some (Some o) -> nth_error (rds n) o = Some x0 -> rq x0 = Some q ->
            nth_error (qs n) q = Some k -> qconn k = false).
  { intros o x0 q k A B C D. unfold isRConnected, getF in Hd. rewrite Hg in Hd. cbn [bind] in Hd. rewrite A in Hd.
    cbn [readerConnected] in Hd. unfold getR in Hd. rewrite B in Hd. cbn [bind] in Hd. rewrite C in Hd. cbn [ptrConnected] in Hd.
    unfold getQ in Hd. rewrite D in Hd. destruct (qlive k); [|discriminate]. cbn in Hd. inversion Hd. reflexivity. }
  refine ((fun Hh => _) (fun Hp => releaseReader_keeps _ _ n1 Hp H1)). destruct Hh as [F1 K1].
  { intros o x0 q k A B C D. cbn [putF rds qs] in *. destruct (mfind s (frd y)) as [z|] eqn:Es; [|discriminate]. subst z.
    apply (Hold o x0 q k eq_refl B C D). }
  cbn [putF fs rds qs] in F1, K1.
  assert (KK : keepsConn n n1).
  { intros f0 w0 g0 r0 (x0 & y0 & q0 & o0 & z0 & k0 & A1 & A2 & A3 & A4 & A5 & A6 & A7 & A8 & A9 & A10).
    destruct (K1 o0 z0 q0 k0 A5 A6 A8 A10) as [B1 B2].
    assert (Hx0 : exists x1, mfind f0 (fs n1) = Some x1 /\ mfind w0 (fwr x1) = Some (Some q0)).
    { rewrite F1, mfind_mset. destruct (Z.eqb_spec f0 g) as [->|]; [|eauto]. eexists. split; [reflexivity|].
      cbn. rewrite Hg in A1. inversion A1; subst. exact A2. }
    assert (Hy0 : exists y1, mfind g0 (fs n1) = Some y1 /\ mfind r0 (frd y1) = Some (Some o0)).
    { rewrite F1, mfind_mset. destruct (Z.eqb_spec g0 g) as [->|]; [|eauto]. eexists. split; [reflexivity|].
      cbn [frd setRd]. rewrite Hg in A3. inversion A3; subst. rewrite mfind_mset. destruct (Z.eqb_spec r0 s) as [->|]; [|exact A4].
      rewrite (Hold o0 z0 q0 k0 A4 A5 A6 A8) in A10. discriminate. }
    destruct Hx0 as (x1 & C1 & C2). destruct Hy0 as (y1 & D1 & D2).
    exists x1, y1, q0, o0, z0, k0. repeat split; assumption. }
  destruct p as [o|]; [|discriminate]. apply bind_ok in H. destruct H as (z & Hz & H).
  destruct (rq z) as [q|] eqn:Eq; [|inversion H; subst; exact KK].
  apply bind_ok in H. destruct H as (k & Hk & H).
  destruct (qconn k && _) eqn:Ec; [|inversion H; subst; exact KK]. inversion H; subst.
  apply (keepsConn_trans _ _ _ KK). unfold keepsConn. apply grows_connected.
  unfold getR in Hz. destruct (nth_error (rds n1) o) as [z'|] eqn:Eo; [|discriminate]. inversion Hz; subst z'.
  unfold getQ in Hk. destruct (nth_error (qs n1) q) as [k'|] eqn:Ek; [|discriminate]. destruct (qlive k') eqn:El; [|discriminate]. inversion Hk; subst k'.
  split; [|split]; cbn [putQ putR fs rds qs].
  - intros; eexists; (split; [eassumption|]); auto.
  - intros o0 z0 Hz0. destruct (Nat.eq_dec o0 o) as [->|Hn].
    + rewrite nth_error_upd_eq by (apply nth_error_Some; congruence). eexists. split; [reflexivity|]. rewrite Eo in Hz0. inversion Hz0; subst.
      split; [symmetry; exact Eq|]. cbn. destruct (existsb (Z.eqb g) (rfs z0)); auto with datatypes.
    + rewrite nth_error_upd_neq by congruence. eexists. split; [exact Hz0|]. auto with datatypes.
  - intros q0 k0 Hk0. destruct (Nat.eq_dec q0 q) as [->|Hn].
    + rewrite nth_error_upd_eq by (apply nth_error_Some; congruence). eexists. split; [reflexivity|]. rewrite Ek in Hk0. inversion Hk0; subst. cbn. auto.
    + rewrite nth_error_upd_neq by congruence. eauto.
Qed.

(** ** Connecting a path. *)
Lemma readersValid_safe n dst l : WF n -> safe (readersValid n dst l) (fun _ => True).
Proof.
  intros W. induction l as [|[rf rr] t IH]; cbn [readersValid]; [exact I|].
  destruct (_ || _); [exact I|]. eapply safe_bind; [apply isRConnected_safe, W|]. intros [|] _ _; [exact IH|exact I].
Qed.
Lemma validCData_safe n q org dst : WF n -> safe (validCData n q org dst) (fun _ => True).
Proof.
  intros W. unfold validCData. destruct (negb _); [exact I|]. eapply safe_bind; [apply readersValid_safe, W|].
  intros [|] _ _; cbn [negb]; [|exact I]. destruct (mmem _ _); [apply isWConnected_safe, W|exact I].
Qed.

Lemma handleGrouping_safe n e org dst ow dr : WF n -> mfind org (fs n) <> None ->
  safe (handleGrouping n e org dst ow dr) (fun a => WF (fst a) /\ skel (fs (fst a)) = skel (fs n) /\ keepsConn n (fst a) /\
     (forall x, mfind org (fs n) = Some x -> mfind ow (fwr x) = None -> fst a = n)).
Proof.
  intros W Ho. unfold handleGrouping, getF. destruct (mfind org (fs n)) as [x|] eqn:Hx; [|congruence]. cbn [bind].
  assert (TRIV : forall b, safe (Ok (n, b)) (fun a : net * bool => WF (fst a) /\ skel (fs (fst a)) = skel (fs n) /\ keepsConn n (fst a) /\
     (forall x0, Some x = Some x0 -> mfind ow (fwr x0) = None -> fst a = n))).
  { intros b. cbn. split; [exact W|]. split; [reflexivity|]. split; [apply keepsConn_refl|auto]. }
  destruct (mfind ow (fwr x)) as [p|] eqn:Hw; [|apply TRIV].
  destruct (ptrConnected_ok n p W (writer_ptr n org x ow p Hx Hw)) as (c & Ec). rewrite Ec. cbn [bind].
  destruct c; cbn [negb]; [|apply TRIV]. destruct p as [q|]; [|apply TRIV].
  destruct (live_of_ptr n q _ _ (wf_heap n W)) as (k & Ek & Enk & Elk); [apply (writer_ptr n org x ow (Some q) Hx Hw q eq_refl)|].
  rewrite Ek. cbn [bind]. eapply safe_bind; [apply validCData_safe, W|]. intros [|] _ _; cbn [negb]; [|apply TRIV].
  destruct (qrd k) as [|[rf rr] t]; [exact I|].
  pose proof (shareReader_safe n e rf rr dst dr W) as S. destruct (shareReader n e rf rr dst dr) as [[n' b]|bb] eqn:E; cbn in *.
  - destruct S as [S1 S2]. split; [exact S1|]. split; [exact S2|].
    split; [apply (shareReader_keeps n e rf rr dst dr n' b W E)|]. intros x0 E0 H0. inversion E0; subst. congruence.
  - exact S.
Qed.

(** The inputs stay within the declared number. *)
Definition LIM (n : net) : Prop := forall f x, mfind f (fs n) = Some x -> length (frd x) <= fmaxR x.

Lemma lim_step n n' : skel (fs n') = skel (fs n) -> rd_step n n' -> LIM n -> LIM n'.
Proof.
  intros Sk St L f x' Hx'. destruct (skel_find2 _ _ Sk f x' Hx') as (x & Hx & _ & Em & _).
  destruct (St f x Hx) as (x2 & Hx2 & D). rewrite Hx' in Hx2. inversion Hx2; subst x2. clear Hx2. rewrite <- Em.
  destruct D as [->|(Hlt & r & v & Hn & ->)]; [apply (L f x Hx)|]. rewrite mset_length_new by exact Hn. lia.
Qed.
Lemma lim_shrink n n' : skel (fs n') = skel (fs n) -> rd_shrink n n' -> LIM n -> LIM n'.
Proof.
  intros Sk St L f x' Hx'. destruct (skel_find2 _ _ Sk f x' Hx') as (x & Hx & _ & Em & _).
  destruct (St f x Hx) as (x2 & Hx2 & D & E). rewrite Hx' in Hx2. inversion Hx2; subst x2. specialize (L f x Hx). lia.
Qed.

Definition netstep (n n' : net) : Prop := WF n' /\ skel (fs n') = skel (fs n) /\ keepsConn n n' /\ (LIM n -> LIM n').
Lemma netstep_trans a b c : netstep a b -> netstep b c -> netstep a c.
Proof.
  intros (A1 & A2 & A3 & A4) (B1 & B2 & B3 & B4). split; [exact B1|]. split; [congruence|].
  split; [apply (keepsConn_trans _ _ _ A3 B3)|auto].
Qed.
Lemma netstep_refl n : WF n -> netstep n n.
Proof. intros W. split; [exact W|]. split; [reflexivity|]. split; [apply keepsConn_refl|auto]. Qed.

Lemma present_skel n n' f : skel (fs n') = skel (fs n) -> mfind f (fs n) <> None -> mfind f (fs n') <> None.
Proof.
  intros Sk H. pose proof (skel_find _ _ Sk f) as E. destruct (mfind f (fs n)); [|congruence].
  destruct (mfind f (fs n')); [discriminate|discriminate].
Qed.

Lemma connect_safe n e f w g r : WF n -> mfind f (fs n) <> None -> mfind g (fs n) <> None ->
  safe (connect n e f w g r) (fun a => netstep n (fst a) /\
     (snd a = false -> forall x, mfind f (fs n) = Some x -> mfind w (fwr x) = None ->
                  exists x', mfind f (fs (fst a)) = Some x' /\ mfind w (fwr x') = None)).
Proof.
  intros W Hf Hg. destruct (Z.eq_dec f g) as [->|Hn].
  { unfold connect. rewrite Z.eqb_refl. exact I. }
  destruct (mfind f (fs n)) as [x|] eqn:Ef; [|congruence]. destruct (mfind g (fs n)) as [y|] eqn:Eg; [|congruence].
  destruct (connect_ok n e f w g r x y W Ef Eg Hn) as (n' & b & E & W' & Sk & St & _).
  rewrite E. destruct (connect_grows n e f w g r n' b W E) as [G F]. cbn. split.
  - split; [exact W'|]. split; [exact Sk|]. split; [exact (grows_connected _ _ G)|apply (lim_step _ _ Sk St)].
  - rewrite <- Ef. exact F.
Qed.

Lemma gen_safe n e f : safe (generateReaderID n e f) (fun _ => True) /\ safe (generateWriterID n e f) (fun _ => True).
Proof. unfold generateReaderID, generateWriterID, getF. destruct (mfind f (fs n)); cbn; auto. Qed.

Lemma chain_safe e l : forall n, WF n -> (forall m, In m l -> mfind m (fs n) <> None) ->
  safe (chain n e l) (fun a => netstep n (fst a)).
Proof.
  induction l as [|a t IH]; intros n W Hl; [cbn; apply netstep_refl, W|].
  destruct t as [|b t]; [cbn; apply netstep_refl, W|].
  change (chain n e (a :: b :: t)) with
    (bind (generateWriterID n e a) (fun w => bind (generateReaderID n e b) (fun r =>
       bind (connect n e a w b r) (fun '(n1, ok) => if ok : bool then chain n1 e (b :: t) else Ok (n1, false))))).
  eapply safe_bind; [apply gen_safe|]. intros w _ _. eapply safe_bind; [apply gen_safe|]. intros r _ _.
  eapply safe_bind; [apply connect_safe; [exact W|apply Hl; left; reflexivity|apply Hl; right; left; reflexivity]|].
  intros [n1 ok] _ (St & _). cbn [fst] in St. destruct ok; [|exact St].
  pose proof (IH n1 (proj1 St)) as R. destruct (chain n1 e (b :: t)) as [[n2 ok2]|bb]; cbn in *.
  - apply (netstep_trans _ _ _ St). apply R. intros m Hm. apply (present_skel n n1 m (proj1 (proj2 St))). apply Hl. right. exact Hm.
  - apply R. intros m Hm. apply (present_skel n n1 m (proj1 (proj2 St))). apply Hl. right. exact Hm.
Qed.

Lemma safe_mono {A} (r : res A) (P Q : A -> Prop) : (forall a, P a -> Q a) -> safe r P -> safe r Q.
Proof. intros H. destruct r as [a|b]; cbn; [apply H|]. destruct b; auto. Qed.

(** handleGrouping may exceed the limit; without the writer it does nothing. *)
Definition netstep' (ok : Prop) (n n' : net) : Prop :=
  WF n' /\ skel (fs n') = skel (fs n) /\ keepsConn n n' /\ (ok -> LIM n -> LIM n').
Lemma netstep_weak ok n n' : netstep n n' -> netstep' ok n n'.
Proof. intros (A & B & C & D). split; [exact A|]. split; [exact B|]. split; [exact C|auto]. Qed.
Lemma netstep'_trans ok a b c : netstep' ok a b -> netstep' ok b c -> netstep' ok a c.
Proof.
  intros (A1 & A2 & A3 & A4) (B1 & B2 & B3 & B4). split; [exact B1|]. split; [congruence|].
  split; [apply (keepsConn_trans _ _ _ A3 B3)|auto].
Qed.

Definition freeOut (n : net) (pa : path) : Prop :=
  forall x, mfind (porg pa) (fs n) = Some x -> mfind (pow pa) (fwr x) = None.

Lemma first_hop n e pa g dr r : WF n -> mfind (porg pa) (fs n) <> None -> mfind g (fs n) <> None ->
  safe (do (n1, ok) <- connect n e (porg pa) (pow pa) g r;
        if ok : bool then Ok (n1, true) else handleGrouping n1 e (porg pa) g (pow pa) dr)
    (fun a => netstep' (freeOut n pa) n (fst a)).
Proof.
  intros W Ho Hg. eapply safe_bind; [apply connect_safe; assumption|]. intros [n1 ok] _ (St & Hfree). cbn [fst snd] in *.
  destruct ok; [apply netstep_weak, St|]. specialize (Hfree eq_refl).
  eapply safe_mono; [|apply (handleGrouping_safe n1 e (porg pa) g (pow pa) dr (proj1 St))].
  - intros [n2 b2] (A & B & C & D). cbn [fst] in *. apply (netstep'_trans _ _ n1); [apply netstep_weak, St|].
    split; [exact A|]. split; [exact B|]. split; [exact C|]. intros Hok L.
    destruct (mfind (porg pa) (fs n)) as [x|] eqn:Ex; [|congruence].
    destruct (Hfree x eq_refl (Hok x Ex)) as (x' & E1 & E2). rewrite (D x' E1 E2). exact L.
  - apply (present_skel n n1 _ (proj1 (proj2 St)) Ho).
Qed.

Lemma connectPath_safe n e pa : WF n -> (forall f, names pa f -> mfind f (fs n) <> None) ->
  safe (connectPath n e pa) (fun a => netstep' (freeOut n pa) n (fst a)).
Proof.
  intros W Hn. unfold connectPath. destruct (negb _); [cbn; apply netstep_weak, netstep_refl, W|].
  destruct (pmid pa) as [|m t] eqn:Em.
  - apply first_hop; [exact W|apply Hn; left; reflexivity|apply Hn; right; left; reflexivity].
  - eapply safe_bind; [apply gen_safe|]. intros r _ _.
    assert (Hm : mfind m (fs n) <> None) by (apply Hn; right; right; rewrite Em; left; reflexivity).
    pose proof (first_hop n e pa m DEFAULT_ID r W (Hn _ (or_introl eq_refl)) Hm) as F.
    destruct (connect n e (porg pa) (pow pa) m r) as [[n1 ok]|bb]; cbn [bind] in *; [|exact F].
    eapply safe_bind; [exact F|]. intros [n2 ok2] _ S2. cbn [fst] in S2.
    destruct ok2; cbn [negb]; [|exact S2].
    assert (P2 : forall f, mfind f (fs n) <> None -> mfind f (fs n2) <> None) by (intros f; apply (present_skel n n2 f (proj1 (proj2 S2)))).
    eapply safe_bind; [apply (chain_safe e (m :: t) n2 (proj1 S2))|].
    { intros m0 Hm0. apply P2, Hn. right. right. rewrite Em. exact Hm0. }
    intros [n3 ok3] _ S3. cbn [fst] in S3.
    assert (S03 : netstep' (freeOut n pa) n n3) by (apply (netstep'_trans _ _ _ _ S2), netstep_weak, S3).
    destruct ok3; cbn [negb]; [|exact S03].
    eapply safe_bind; [apply gen_safe|]. intros w _ _.
    assert (P3 : forall f, mfind f (fs n) <> None -> mfind f (fs n3) <> None) by (intros f; apply (present_skel n n3 f (proj1 (proj2 S03)))).
    eapply safe_mono; [|apply (connect_safe n3 e (last (m :: t) 0%Z) w (pdst pa) (pdr pa) (proj1 S3))].
    + intros [n4 ok4] (S4 & _). cbn [fst] in *. apply (netstep'_trans _ _ _ _ S03), netstep_weak, S4.
    + apply P3, Hn. right. right. rewrite Em. destruct (exists_last (l := m :: t)) as (l' & z & El); [discriminate|]. rewrite El, last_last.
      apply in_or_app. right. left. reflexivity.
    + apply P3, Hn. right. left. reflexivity.
Qed.

(** ** Commands. *)
Lemma fresh_absent {A} (m : zmap A) c : mfind (fresh m c) m = None.
Proof.
  unfold fresh. destruct (mmem (Z.of_N c) m) eqn:E.
  - destruct (mfind _ m) as [v|] eqn:Ef; [|reflexivity]. exfalso. apply mfind_In in Ef.
    assert (H : forall l : zmap A, In (1 + fold_right Z.max 0 (mkeys m), v)%Z l -> (1 + fold_right Z.max 0 (mkeys m) <= fold_right Z.max 0 (mkeys l))%Z).
    { generalize (1 + fold_right Z.max 0 (mkeys m))%Z. intros z l. induction l as [|[k w] t IH]; cbn; [contradiction|].
      intros [Ek|Ht]; [inversion Ek; subst; lia|specialize (IH Ht); unfold mkeys in IH; lia]. }
    specialize (H m Ef). lia.
  - unfold mmem in E. destruct (mfind _ m); [discriminate|reflexivity].
Qed.

Lemma dup_nodup l : dup l = false -> NoDup l.
Proof.
  induction l as [|a t IH]; cbn; [constructor|]. intros H. apply orb_false_iff in H. destruct H as [H1 H2]. constructor; [|auto].
  intros Hin. assert (existsb (Z.eqb a) t = true); [|congruence]. apply existsb_exists. exists a. split; [exact Hin|apply Z.eqb_refl].
Qed.

Definition registered (p : pipe) (id org dst : Z) (mids : list Z) (pa : path) : Prop :=
  mfind id (ppaths p) = None /\ porg pa = org /\ pdst pa = dst /\ pmid pa = mids /\ pobj pa = pnext p /\
  (forall f, names pa f -> mfind f (pfilters p) <> None) /\ ~ In org mids /\ ~ In dst mids /\ NoDup mids.

Lemma createPath_ok p e id org dst ow dr mids : exists p' b, createPath p e id org dst ow dr mids = Ok (p', b) /\
  (b = false -> p' = p) /\
  (b = true -> exists pa, registered p id org dst mids pa /\
     p' = mkPipe (pnet p) (mset id pa (ppaths p)) (ppool p) (S (pnext p)) (goneF p) (goneP p) /\
     (direct p (CreatePath id org dst ow dr mids) p true -> freeOut (pnet p) pa)).
Proof.
  unfold createPath. destruct (mmem id (ppaths p)) eqn:E1; [exists p, false; split; [reflexivity|split; [auto|discriminate]]|].
  destruct (mmem org (pfilters p)) eqn:E2; cbn [negb]; [|exists p, false; split; [reflexivity|split; [auto|discriminate]]].
  destruct (mmem dst (pfilters p)) eqn:E3; cbn [negb]; [|exists p, false; split; [reflexivity|split; [auto|discriminate]]].
  destruct (existsb _ mids) eqn:E4; [exists p, false; split; [reflexivity|split; [auto|discriminate]]|].
  destruct (dup mids) eqn:E5; [exists p, false; split; [reflexivity|split; [auto|discriminate]]|].
  unfold mmem in E1, E2, E3. destruct (mfind id (ppaths p)) eqn:H1; [discriminate|].
  destruct (mfind org (pfilters p)) as [x|] eqn:H2; [|discriminate]. destruct (mfind dst (pfilters p)) as [y|] eqn:H3; [|discriminate].
  assert (HW : exists ow', (if (ow <? 0)%Z then generateWriterID (pnet p) e org else Ok ow) = Ok ow' /\
     (direct p (CreatePath id org dst ow dr mids) p true -> mfind ow' (fwr x) = None)).
  { unfold generateWriterID, getF. unfold pfilters in H2. rewrite H2. cbn [bind direct]. destruct (Z.ltb_spec ow 0) as [L|L].
    - eexists. split; [reflexivity|]. intros D. destruct (D x H2) as [_ D2]. specialize (D2 L).
      destruct (Nat.eqb_spec (fmaxW x) 1); [|apply fresh_absent]. destruct (fwr x); [reflexivity|cbn in D2; lia].
    - eexists. split; [reflexivity|]. intros D. destruct (D x H2) as [D1 _]. apply D1. exact L. }
  destruct HW as (ow' & -> & Hdir). cbn [bind].
  assert (HR : exists dr', (if (dr <? 0)%Z then generateReaderID (pnet p) e dst else Ok dr) = Ok dr').
  { unfold generateReaderID, getF. unfold pfilters in H3. rewrite H3. cbn [bind]. destruct (dr <? 0)%Z; eauto. }
  destruct HR as (dr' & ->). cbn [bind].
  eexists _, true. split; [reflexivity|]. split; [discriminate|]. intros _. eexists. split; [|split; [reflexivity|]].
  - assert (Hm : forall m, In m mids -> mfind m (pfilters p) <> None /\ m <> org /\ m <> dst).
    { intros m Hm. assert (Hc : (negb (mmem m (pfilters p)) || (m =? org)%Z || (m =? dst)%Z) = false).
      { destruct (negb _ || _ || _) eqn:Ec; [|reflexivity]. rewrite <- E4. symmetry. apply existsb_exists. eauto. }
      apply orb_false_iff in Hc. destruct Hc as [Hc C3]. apply orb_false_iff in Hc. destruct Hc as [C1 C2].
      apply Z.eqb_neq in C2, C3. apply negb_false_iff in C1. unfold mmem in C1. destruct (mfind m (pfilters p)); [|discriminate].
      split; [discriminate|auto]. }
    unfold registered, names. cbn. do 5 (split; [solve [auto]|]). split.
    + intros f [->|[->|Hf]]; [congruence|congruence|apply (Hm f Hf)].
    + split; [intros Ho; destruct (Hm org Ho) as (_ & ? & _); congruence|].
      split; [intros Ho; destruct (Hm dst Ho) as (_ & _ & ?); congruence|apply dup_nodup, E5].
  - intros D x' Hx'. cbn in *. unfold pfilters in H2. rewrite H2 in Hx'. inversion Hx'; subst. apply Hdir, D.
Qed.

Lemma pi_addpath p id pa : PI p -> mfind id (ppaths p) = None -> pobj pa = pnext p ->
  PI (mkPipe (pnet p) (mset id pa (ppaths p)) (ppool p) (S (pnext p)) (goneF p) (goneP p)).
Proof.
  intros [H1 H2 H3 H4 H5 H6 H7 H8 H9 H10] Hn Ho. constructor; cbn [pnet ppaths ppool pnext goneF goneP pfilters]; auto.
  - apply msorted_mset, H2.
  - intros o Hin. specialize (H5 o Hin). lia.
  - intros o Hin. specialize (H8 o Hin). lia.
  - intros i pb Hi. rewrite mfind_mset in Hi. destruct (Z.eqb_spec i id); [inversion Hi; subst; lia|specialize (H9 i pb Hi); lia].
  - intros i j pb pc Hi Hj E. rewrite mfind_mset in Hi, Hj.
    destruct (Z.eqb_spec i id), (Z.eqb_spec j id); subst; auto.
    + inversion Hi; subst pb. specialize (H9 j pc Hj). lia.
    + inversion Hj; subst pc. specialize (H9 i pb Hi). lia.
    + apply (H10 i j pb pc Hi Hj E).
Qed.

Lemma createPathEvent_safe p e id org dst ow dr mids : PI p ->
  safe (createPathEvent p e id org dst ow dr mids) (fun a => let '(p', b) := a in PI p' /\
     goneF p' = goneF p /\ goneP p' = goneP p /\ ppool p' = ppool p /\ skel (pfilters p') = skel (pfilters p) /\
     keepsConn (pnet p) (pnet p') /\
     (direct p (CreatePath id org dst ow dr mids) p true -> LIM (pnet p) -> LIM (pnet p')) /\
     ((p' = p /\ b = false) \/ exists pa, registered p id org dst mids pa /\ ppaths p' = mset id pa (ppaths p))).
Proof.
  intros PIp. unfold createPathEvent. destruct (createPath_ok p e id org dst ow dr mids) as (p1 & b & E & F1 & F2). rewrite E. cbn [bind].
  destruct b; cbn [negb].
  2:{ rewrite (F1 eq_refl). cbn. split; [exact PIp|]. repeat (split; [reflexivity|]). split; [apply keepsConn_refl|]. split; [auto|]. left. auto. }
  destruct (F2 eq_refl) as (pa & Rg & -> & Hd). cbn [ppaths]. rewrite mfind_mset_eq. cbn [pnet].
  pose proof Rg as (A1 & A2 & A3 & A4 & A5 & A6 & A7).
  eapply safe_bind; [apply connectPath_safe; [apply (pi_wf p PIp)|exact A6]|].
  intros [n c] _ (B1 & B2 & B3 & B4). cbn [fst] in *. cbn [safe].
  split; [apply pi_withNet; [apply pi_addpath; assumption|exact B1|exact B2]|].
  repeat (split; [reflexivity|]). split; [exact B2|]. split; [exact B3|]. split; [auto|]. right. exists pa. split; [exact Rg|reflexivity].
Qed.

Lemma pi_delpath p id : PI p -> PI (mkPipe (pnet p) (mdel id (ppaths p)) (ppool p) (pnext p) (goneF p) (goneP p)).
Proof.
  intros [H1 H2 H3 H4 H5 H6 H7 H8 H9 H10]. constructor; cbn [pnet ppaths ppool pnext goneF goneP pfilters]; auto.
  - apply msorted_mdel, H2.
  - intros i pb Hi. rewrite mfind_mdel in Hi by exact H2. destruct (i =? id)%Z; [discriminate|apply (H9 i pb Hi)].
  - intros i j pb pc Hi Hj E. rewrite mfind_mdel in Hi, Hj by exact H2.
    destruct (i =? id)%Z; [discriminate|]. destruct (j =? id)%Z; [discriminate|]. apply (H10 i j pb pc Hi Hj E).
Qed.
Lemma pi_nopaths p : PI p -> PI (mkPipe (pnet p) [] (ppool p) (pnext p) (goneF p) (goneP p)).
Proof.
  intros [H1 H2 H3 H4 H5 H6 H7 H8 H9 H10]. constructor; cbn [pnet ppaths ppool pnext goneF goneP pfilters]; auto.
  - exact I.
  - intros; discriminate.
  - intros; discriminate.
Qed.

Lemma removePath_safe p e id : PI p ->
  safe2 (removePath p e id) (fun a => let '(p', b) := a in PI p' /\ counted p p' /\ ppool p' = ppool p /\
    (mfind id (ppaths p) = None -> p' = p /\ b = true) /\
    (b = false -> ppaths p' = ppaths p /\ goneP p' = goneP p /\ goneF p' = goneF p /\ skel (pfilters p') = skel (pfilters p)) /\
    (b = true -> forall pa, mfind id (ppaths p) = Some pa -> ppaths p' = mdel id (ppaths p) /\
        ~ In (pobj pa) (goneP p) /\ goneP p' = pobj pa :: goneP p /\
        (forall g, gone_with p id pa g -> objOf p' g = None) /\
        (forall g, ~ gone_with p id pa g -> objOf p' g = objOf p g))).
Proof.
  intros PIp. unfold removePath, mmem. destruct (mfind id (ppaths p)) as [pa|] eqn:Hid; cbn [negb].
  2:{ cbn. split; [exact PIp|]. split; [apply counted_refl; reflexivity|]. split; [reflexivity|]. split; [auto|]. split; discriminate. }
  eapply safe2_bind; [apply deletePath_safe, PIp|]. intros [p1 ok] _ (A1 & A2 & A3 & A4 & A5 & A6 & A7).
  destruct ok; cbn [safe2].
  - split; [apply pi_delpath, A1|]. split; [exact A5|]. split; [exact A3|]. split; [discriminate|]. split; [discriminate|].
    intros _ pa0 E. inversion E; subst pa0. destruct (A7 eq_refl) as (pa1 & B1 & B2 & B3 & B4 & B5 & B6).
    rewrite Hid in B1. inversion B1; subst pa1. cbn [ppaths goneP]. rewrite A2. auto.
  - split; [exact A1|]. split; [exact A5|]. split; [exact A3|]. split; [discriminate|]. split; [|discriminate].
    intros _. destruct (A6 eq_refl) as (B1 & B2 & B3). auto.
Qed.

Lemma removeFilter_safe p f : PI p ->
  safe2 (removeFilter p f) (fun a => let '(p', b) := a in PI p' /\ counted p p' /\
    (b = false -> p' = p) /\ ppaths p' = ppaths p /\ goneP p' = goneP p /\
    (b = true -> pfilters p' = mdel f (pfilters p) /\ forall i pa, mfind i (ppaths p) = Some pa -> ~ names pa f)).
Proof.
  intros PIp. unfold removeFilter. destruct (mfind f (pfilters p)) as [x|] eqn:Hf.
  2:{ cbn. split; [exact PIp|]. split; [apply counted_refl; reflexivity|]. do 3 (split; [solve [auto]|]). discriminate. }
  eapply safe2_bind; [apply usedBy_safe|]. intros u Hu _. pose proof (usedBy_spec _ _ _ _ _ Hu) as Su.
  destruct u.
  - cbn. split; [exact PIp|]. split; [apply counted_refl; reflexivity|]. do 3 (split; [solve [auto]|]). discriminate.
  - assert (Hp : ppool p = true) by (apply (pi_pool p PIp); intros E; rewrite E in Hf; discriminate).
    destruct (dropFilter_ok p f PIp Hp) as (p1 & E1 & B1 & B2 & B3 & B4 & B5 & B6 & B7). rewrite E1. cbn.
    split; [exact B1|]. split; [apply (counted_drop p p1 f B5 B6)|]. split; [discriminate|]. split; [exact B3|]. split; [exact B4|].
    intros _. split; [exact B5|]. intros i pa Hi Hn. assert (false = true); [|discriminate]. apply Su.
    exists i, pa. split; [apply mfind_In, Hi|]. auto.
Qed.

(** ** Stopping. *)
Lemma stopPaths_safe e l : forall p, PI p ->
  safe2 (stopPaths p e l) (fun a => let '(p', b) := a in PI p' /\ counted p p' /\ ppaths p' = ppaths p /\ ppool p' = ppool p /\
     (b = true -> forall i pa, In i l -> mfind i (ppaths p) = Some pa -> In (pobj pa) (goneP p')) /\
     incl (goneP p) (goneP p')).
Proof.
  induction l as [|i t IH]; intros p PIp; cbn [stopPaths].
  - cbn. split; [exact PIp|]. split; [apply counted_refl; reflexivity|]. split; [reflexivity|]. split; [reflexivity|]. split; [contradiction|]. auto with datatypes.
  - eapply safe2_bind; [apply deletePath_safe, PIp|]. intros [p1 ok] _ (A1 & A2 & A3 & A4 & A5 & A6 & A7).
    destruct ok.
    + destruct (A7 eq_refl) as (pa & B1 & B2 & B3 & _). eapply safe2_mono; [|apply (IH p1 A1)].
      intros [p2 b] (C1 & C2 & C3 & C4 & C5 & C6). split; [exact C1|]. split; [apply (counted_trans _ _ _ A5 C2)|]. split; [congruence|].
      split; [congruence|]. split.
      * intros Hb j pb Hj Hpb. destruct Hj as [<-|Hj].
        -- rewrite B1 in Hpb. inversion Hpb; subst. apply C6. rewrite B3. left. reflexivity.
        -- apply (C5 Hb j pb Hj). rewrite A2. exact Hpb.
      * intros o Ho. apply C6. rewrite B3. right. exact Ho.
    + cbn. destruct (A6 eq_refl) as (B1 & _). split; [exact A1|]. split; [exact A5|]. split; [exact A2|]. split; [exact A3|]. split; [discriminate|].
      rewrite B1. auto with datatypes.
Qed.

Lemma stopFilters_ok l : forall p, PI p -> ppool p = true -> exists p', stopFilters p l = Ok p' /\ PI p' /\ counted p p' /\
  keeps p p' /\ (forall f, In f l -> mfind f (pfilters p') = None) /\ (forall f x, mfind f (pfilters p') = Some x -> mfind f (pfilters p) <> None) /\
  (forall f x, mfind f (pfilters p) = Some x -> mfind f (pfilters p') = None -> In (fobj x) (goneF p')) /\ incl (goneF p) (goneF p').
Proof.
  induction l as [|a t IH]; intros p PIp Hp; cbn [stopFilters].
  - exists p. split; [reflexivity|]. split; [exact PIp|]. split; [apply counted_refl; reflexivity|]. split; [constructor; reflexivity|].
    split; [contradiction|]. split; [congruence|]. split; [congruence|]. auto with datatypes.
  - destruct (dropFilter_ok p a PIp Hp) as (p1 & E1 & B1 & B2 & B3 & B4 & B5 & B6 & B7). rewrite E1. cbn [bind].
    destruct (IH p1 B1 B2) as (p2 & E2 & C1 & C2 & [K1 K2 K3 K4] & C4 & C5 & C6 & C7). exists p2. split; [exact E2|]. split; [exact C1|].
    pose proof (pi_wf p PIp) as Wp. pose proof (proj1 (wf_sorted _ Wp)) as Sp.
    assert (Hfi : forall f, mfind f (pfilters p1) = if (f =? a)%Z then None else mfind f (pfilters p)).
    { intros f. rewrite B5. apply mfind_mdel. exact Sp. }
    split; [apply (counted_trans _ p1); [apply (counted_drop p p1 a B5 B6)|exact C2]|].
    split; [constructor; congruence|]. split; [|split; [|split]].
    + intros f [<-|Hf]; [|apply C4, Hf]. destruct (mfind a (pfilters p2)) as [x|] eqn:Ea; [|reflexivity]. exfalso.
      apply (C5 a x Ea). rewrite Hfi, Z.eqb_refl. reflexivity.
    + intros f x Hx Hn. apply (C5 f x Hx). rewrite Hfi. destruct (f =? a)%Z; [reflexivity|exact Hn].
    + intros f x Hx Hn. destruct (Z.eqb_spec f a) as [->|Hfa].
      * apply C7. rewrite B6, Hx. left. reflexivity.
      * apply (C6 f x); [rewrite Hfi; destruct (Z.eqb_spec f a); [contradiction|exact Hx]|exact Hn].
    + intros o Ho. apply C7. rewrite B6. apply in_or_app. right. exact Ho.
Qed.

Lemma stop_safe p e : PI p ->
  safe2 (stop p e) (fun a => let '(p', b) := a in PI p' /\ counted p p' /\
    (b = true -> ppaths p' = [] /\ pfilters p' = [] /\
       (forall i pa, mfind i (ppaths p) = Some pa -> In (pobj pa) (goneP p')))).
Proof.
  intros PIp. unfold stop. destruct (ppool p) eqn:Hp; cbn [negb].
  2:{ cbn. split; [exact PIp|]. split; [apply counted_refl; reflexivity|discriminate]. }
  eapply safe2_bind; [apply stopPaths_safe, PIp|]. intros [p1 ok] _ (A1 & A2 & A3 & A4 & A5 & A6).
  destruct ok; cbn [negb]; [|cbn; split; [exact A1|]; split; [exact A2|discriminate]].
  set (p2 := mkPipe (pnet p1) [] (ppool p1) (pnext p1) (goneF p1) (goneP p1)).
  assert (P2 : PI p2) by apply pi_nopaths, A1.
  destruct (stopFilters_ok (mkeys (pfilters p2)) p2 P2) as (p3 & E3 & B1 & B2 & [K1 K2 K3 K4] & B4 & B5 & B6 & B7); [cbn; congruence|].
  rewrite E3. cbn [bind safe2].
  assert (Hnil : pfilters p3 = []).
  { destruct (pfilters p3) as [|[f x] t] eqn:Ef; [reflexivity|]. exfalso.
    assert (Hx : mfind f (pfilters p3) = Some x) by (rewrite Ef; cbn; rewrite Z.eqb_refl; reflexivity).
    pose proof (B5 f x ltac:(rewrite <- Ef in *; exact Hx)) as Hne. apply mkeys_in in Hne.
    pose proof (B4 f Hne) as Hno. rewrite <- Ef in Hno. congruence. }
  split; [|split].
  - destruct B1 as [H1 H2 H3 H4 H5 H6 H7 H8 H9 H10]. constructor; auto; intros Hne; exfalso; apply Hne; exact Hnil.
  - apply (counted_trans _ p1); [exact A2|]. exact B2.
  - intros _. split; [exact K1|]. split; [exact Hnil|]. intros i pa Hi. cbn [goneP]. rewrite K2. cbn.
    apply (A5 eq_refl i pa); [apply mkeys_in; congruence|exact Hi].
Qed.

Lemma stop_nopaths p e : PI p -> ppool p = true -> ppaths p = [] -> exists p', stop p e = Ok (p', true).
Proof.
  intros PIp Hp Hn. unfold stop. rewrite Hp, Hn. cbn [negb mkeys map stopPaths bind].
  set (p2 := mkPipe (pnet p) [] true (pnext p) (goneF p) (goneP p)).
  assert (P2 : PI p2) by (unfold p2; rewrite <- Hp; apply pi_nopaths, PIp).
  destruct (stopFilters_ok (mkeys (pfilters p2)) p2 P2 eq_refl) as (p3 & E3 & _). rewrite Hp. fold p2. rewrite E3. cbn. eauto.
Qed.

Lemma stop_onepath p e i pa p1 : PI p -> ppaths p = [(i, pa)] -> deletePath p e i = Ok (p1, true) -> exists p', stop p e = Ok (p', true).
Proof.
  intros PIp Hn Hd. pose proof (deletePath_safe p e i PIp) as S. rewrite Hd in S. destruct S as (A1 & A2 & A3 & _ & _ & _ & A7).
  assert (Hp : ppool p = true).
  { destruct (A7 eq_refl) as (pb & _ & _ & _ & B4 & _). apply (pi_pool p PIp). intros E.
    apply (B4 (porg pb)); [left; reflexivity|]. unfold objOf. rewrite E. reflexivity. }
  unfold stop. rewrite Hp, Hn. cbn [negb mkeys map fst stopPaths bind]. rewrite Hd. cbn [bind negb].
  set (p2 := mkPipe (pnet p1) [] (ppool p1) (pnext p1) (goneF p1) (goneP p1)).
  assert (P2 : PI p2) by apply pi_nopaths, A1.
  destruct (stopFilters_ok (mkeys (pfilters p2)) p2 P2) as (p3 & E3 & _); [cbn; congruence|]. rewrite E3. cbn. eauto.
Qed.

(** A dead registered path is met by the loop of the next deletion. *)
Lemma usedBy_dead p f skip l : forall i pa u, In (i, pa) l -> i <> skip -> pathLive p pa = false -> usedBy p l (Some skip) f = Ok u -> False.
Proof.
  induction l as [|[j pb] t IH]; intros i pa u Hin Hi Hl H; [contradiction|]. cbn [usedBy] in H.
  destruct (Z.eqb_spec j skip).
  - destruct Hin as [E|Hin]; [inversion E; congruence|]. apply (IH i pa u Hin Hi Hl H).
  - destruct (pathLive p pb) eqn:El; cbn [negb] in H; [|discriminate].
    destruct Hin as [E|Hin]; [inversion E; congruence|].
    destruct (hasFilter pb f).
    + apply bind_ok in H. destruct H as (v & Hv & _). apply (IH i pa v Hin Hi Hl Hv).
    + apply (IH i pa u Hin Hi Hl H).
Qed.

Lemma deletePath_dead p e id i pa p' : PI p -> mfind i (ppaths p) = Some pa -> i <> id -> In (pobj pa) (goneP p) ->
  deletePath p e id = Ok (p', true) -> False.
Proof.
  intros PIp Hi Hn Hdead H. unfold deletePath in H. destruct (mfind id (ppaths p)) as [pb|] eqn:Hid; [|discriminate].
  destruct (negb (pathLive p pb)); [discriminate|]. destruct (_ || _) eqn:Eod; [discriminate|]. destruct (negb (forallb _ _)) eqn:Em; [discriminate|].
  apply bind_ok in H. destruct H as ([n1 ok] & H1 & H). destruct ok; cbn [negb] in H; [|discriminate].
  apply bind_ok in H. destruct H as (p2 & H2 & H). apply bind_ok in H. destruct H as (uo & Hu & _).
  apply orb_false_iff in Eod. destruct Eod as [_ Ed]. apply negb_false_iff in Ed. unfold mmem in Ed.
  destruct (mfind (pdst pb) (pfilters p)) as [xd|] eqn:Hd; [|discriminate].
  assert (Hp : ppool p = true) by (apply (pi_pool p PIp); intros E; rewrite E in Hd; discriminate).
  pose proof (disc_case (pnet p) e (pdst pb) (pdr pb) xd (pi_wf p PIp) Hd) as S1. rewrite H1 in S1. cbn in S1. destruct S1 as (W1 & Sk1 & _).
  pose proof (dropMids_safe (withNet p n1) e (rev (pmid pb)) (pi_withNet p n1 PIp W1 Sk1) Hp) as S2. rewrite H2 in S2.
  destruct S2 as (_ & [K1 K2 K3 K4] & _). cbn in K1, K2.
  apply (usedBy_dead p2 (porg pb) id (ppaths p2) i pa uo); auto.
  - rewrite K1. apply mfind_In, Hi.
  - unfold pathLive. rewrite K2. apply negb_false_iff. apply existsb_exists. exists (pobj pa). split; [exact Hdead|apply Nat.eqb_refl].
Qed.

Lemma stop_twopaths p e p' a : PI p -> 2 <= length (ppaths p) -> stop p e = Ok (p', a) -> a = false.
Proof.
  intros PIp H2 H. unfold stop in H. destruct (ppool p); cbn [negb] in H; [|congruence].
  destruct (ppaths p) as [|[i pa] [|[j pb] t]] eqn:Ep; cbn in H2; [lia|lia|].
  assert (Hij : (i < j)%Z).
  { pose proof (pi_paths p PIp) as S. rewrite Ep in S. destruct S as [_ [S _]]. exact S. }
  apply bind_ok in H. destruct H as ([p1 ok] & H1 & H). cbn [mkeys map fst stopPaths] in H1.
  apply bind_ok in H1. destruct H1 as ([q1 ok1] & D1 & H1). destruct ok1; [|inversion H1; subst; cbn [negb] in H; congruence].
  pose proof (deletePath_safe p e i PIp) as S. rewrite D1 in S. destruct S as (A1 & A2 & A3 & _ & _ & _ & A7).
  destruct (A7 eq_refl) as (pa1 & B1 & _ & B3 & _). rewrite Ep in B1. cbn in B1. rewrite Z.eqb_refl in B1. inversion B1; subst pa1.
  apply bind_ok in H1. destruct H1 as ([q2 ok2] & D2 & H1). destruct ok2; [|inversion H1; subst; cbn [negb] in H; congruence].
  exfalso. apply (deletePath_dead q1 e j i pa q2 A1); auto; [|lia|rewrite B3; left; reflexivity].
  rewrite A2, Ep. cbn. rewrite Z.eqb_refl. reflexivity.
Qed.

(** ** All commands. *)
Definition isCreate (c : cmd) (a : bool) : nat := match c, a with CreateFilter _ _ _, true => 1 | _, _ => 0 end.

Lemma createFilter_ok p id t made p' b : PI p -> createFilter p id t made = (p', b) ->
  PI p' /\ (b = false -> p' = p) /\
  (b = true -> (0 <= id)%Z /\ mfind id (pfilters p) = None /\ ppaths p' = ppaths p /\ goneF p' = goneF p /\ goneP p' = goneP p /\
     rds (pnet p') = rds (pnet p) /\ qs (pnet p') = qs (pnet p) /\
     pfilters p' = mset id (mkF (pnext p) (fst (limits t)) (snd (limits t)) [] []) (pfilters p)).
Proof.
  intros PIp H. unfold createFilter in H. destruct (Z.ltb_spec id 0) as [L|L]; cbn [orb] in H.
  { inversion H; subst. split; [exact PIp|]. split; [auto|discriminate]. }
  unfold mmem in H. destruct (mfind id (pfilters p)) as [x|] eqn:Hid.
  { inversion H; subst. split; [exact PIp|]. split; [auto|discriminate]. }
  assert (HH : (p', b) = (p, false) \/ (p', b) = (mkPipe (mkNet (mset id (mkF (pnext p) (fst (limits t)) (snd (limits t)) [] []) (fs (pnet p)))
       (rds (pnet p)) (qs (pnet p))) (ppaths p) true (S (pnext p)) (goneF p) (goneP p), true)).
  { rewrite <- H. destruct t; destruct made; auto. }
  clear H. destruct HH as [H|H]; inversion H; subst; clear H.
  { split; [exact PIp|]. split; [auto|discriminate]. }
  split; [|split; [discriminate|intros _; repeat (split; [assumption || reflexivity|]); reflexivity]].
  set (x := mkF _ _ _ [] []).
  assert (Eo : forall m lo, sorted_from lo m -> mfind id m = None -> exists a b, objs m = a ++ b /\ objs (mset id x m) = a ++ fobj x :: b).
  { clear. induction m as [|[k y] tl IH]; intros lo S Hf; cbn [mset mfind] in *.
    - exists [], []. auto.
    - destruct (Z.eqb_spec id k); [discriminate|]. destruct (id <? k)%Z; [exists [], (objs ((k, y) :: tl)); auto|].
      destruct S as [S1 S2]. destruct (IH _ S2 Hf) as (a & b & E1 & E2). exists (fobj y :: a), b.
      change (objs ((k, y) :: tl)) with (fobj y :: objs tl). change (objs ((k, y) :: mset id x tl)) with (fobj y :: objs (mset id x tl)).
      rewrite E1, E2. auto. }
  destruct PIp as [H1 H2 H3 H4 H5 H6 H7 H8 H9 H10].
  destruct (Eo (pfilters p) None (proj1 (wf_sorted _ H1)) Hid) as (a & b & E1 & E2).
  constructor; unfold pfilters; cbn [pnet ppaths ppool pnext goneF goneP fs]; auto.
  - apply wf_new_filter; [exact H1|exact Hid|reflexivity|reflexivity].
  - intros k Hk. apply mkeys_in in Hk. rewrite mfind_mset in Hk. destruct (Z.eqb_spec k id); [lia|]. apply H3, mkeys_in, Hk.
  - change (fs (pnet p)) with (pfilters p). rewrite E2. rewrite E1 in H4. rewrite <- app_assoc. cbn.
    apply NoDup_Add with (a := fobj x) (l := a ++ b ++ goneF p); [apply Add_app|]. rewrite <- app_assoc in H4. split; [exact H4|].
    intros Hin. assert (fobj x < pnext p); [|cbn in H; lia]. apply H5. rewrite E1. rewrite <- app_assoc. exact Hin.
  - intros o Ho. change (fs (pnet p)) with (pfilters p) in Ho. rewrite E2, <- app_assoc in Ho. apply in_app_or in Ho.
    assert (Hlt : In o (objs (pfilters p) ++ goneF p) -> o < S (pnext p)) by (intros Hi; specialize (H5 o Hi); lia).
    rewrite E1, <- app_assoc in Hlt. destruct Ho as [Ho|[Ho|Ho]]; [apply Hlt, in_or_app; auto| |apply Hlt, in_or_app; auto].
    subst o. cbn. lia.
  - intros o Ho. specialize (H8 o Ho). lia.
  - intros i pa Hi. specialize (H9 i pa Hi). lia.
Qed.

Lemma cmd_safe p e c : PI p ->
  safe2 (pcmd p e c) (fun a => let '(p', b) := a in PI p' /\
    length (pfilters p') + length (goneF p') = length (pfilters p) + length (goneF p) + isCreate c b).
Proof.
  intros PIp.
  assert (CNT : forall p' b, (match c with CreateFilter _ _ _ => False | _ => True end) -> counted p p' ->
    length (pfilters p') + length (goneF p') = length (pfilters p) + length (goneF p) + isCreate c b).
  { intros p' b Hc Hn. apply counted_length in Hn. destruct c; try contradiction; cbn; lia. }
  destruct c as [id t made|id org dst ow dr mids|id|f| |f|f timed]; cbn [pcmd].
  - cbn. destruct (createFilter p id t made) as [p' b] eqn:E. destruct (createFilter_ok p id t made p' b PIp E) as (A & B & C).
    split; [exact A|]. destruct b; cbn.
    + destruct (C eq_refl) as (_ & Hn & _ & Eg & _ & _ & _ & Ef). rewrite Ef, Eg, mset_length_new by exact Hn. lia.
    + rewrite (B eq_refl). lia.
  - eapply safe2_mono; [|apply safe_safe2, (createPathEvent_safe p e id org dst ow dr mids PIp)].
    intros [p' b] (A & B & C & D & E & _). split; [exact A|]. apply CNT; [exact I|]. apply counted_skel; assumption.
  - eapply safe2_mono; [|apply (removePath_safe p e id PIp)]. intros [p' b] (A & B & _). split; [exact A|]. apply CNT; auto.
  - eapply safe2_mono; [|apply (removeFilter_safe p f PIp)]. intros [p' b] (A & B & _). split; [exact A|]. apply CNT; auto.
  - eapply safe2_mono; [|apply (stop_safe p e PIp)]. intros [p' b] (A & B & _). split; [exact A|]. apply CNT; auto.
  - destruct (mfind f (pfilters p)) as [x|] eqn:Hf; [|cbn; split; [exact PIp|lia]].
    destruct (sweepWriters_ok (pnet p) e f (mkeys (fwr x)) (pi_wf p PIp)) as (n' & E & W & Sk & _); [eauto|]. rewrite E. cbn [bind safe2].
    split; [apply pi_withNet; assumption|]. cbn. unfold pfilters at 1. cbn. rewrite (skel_length _ _ Sk). unfold pfilters. lia.
  - destruct (mfind f (pfilters p)) as [x|] eqn:Hf; [|cbn; split; [exact PIp|lia]].
    eapply safe2_bind; [apply safe_safe2, (sweepReaders_safe (pnet p) e f timed (mkeys (frd x)) (pi_wf p PIp)); eauto|].
    intros n' _ (W & Sk & _). cbn [safe2]. split; [apply pi_withNet; assumption|].
    cbn. unfold pfilters at 1. cbn. rewrite (skel_length _ _ Sk). unfold pfilters. lia.
Qed.

Lemma creations_app h1 h2 : creations (h1 ++ h2) = creations h1 + creations h2.
Proof. induction h1 as [|[c a] t IH]; cbn; [reflexivity|]. destruct c; try exact IH. destruct a; cbn; lia. Qed.
Lemma creations_one c a : creations [(c, a)] = isCreate c a.
Proof. destruct c; reflexivity. Qed.

Lemma phist_inv p h : phist p h -> PI p /\ length (pfilters p) + length (goneF p) = creations h.
Proof.
  induction 1 as [|p h e c p' a Hh [IH1 IH2] Hc]; [split; [exact pi_empty|reflexivity]|].
  pose proof (cmd_safe p e c IH1) as S. rewrite Hc in S. destruct S as [S1 S2]. split; [exact S1|].
  rewrite S2, IH2, creations_app, creations_one. reflexivity.
Qed.
Lemma hist_phist ok p h : hist ok p h -> phist p h.
Proof. induction 1; econstructor; eassumption. Qed.

(** ** Registered paths are alive unless a stop failed. *)
Definition live (p : pipe) : Prop := forall i pa, mfind i (ppaths p) = Some pa -> ~ In (pobj pa) (goneP p).

Lemma cmd_live p e c p' a : PI p -> live p -> pcmd p e c = Ok (p', a) -> stopDone p c p' a -> live p'.
Proof.
  intros PIp L H SD. destruct c as [id t made|id org dst ow dr mids|id|f| |f|f timed]; cbn [pcmd] in H.
  - inversion H; subst. destruct (createFilter p id t made) as [p1 b1] eqn:E. inversion H1; subst.
    destruct (createFilter_ok _ _ _ _ _ _ PIp E) as (_ & B & C). destruct a; [|rewrite (B eq_refl); exact L].
    destruct (C eq_refl) as (_ & _ & E1 & _ & E2 & _). unfold live. rewrite E1, E2. exact L.
  - pose proof (createPathEvent_safe p e id org dst ow dr mids PIp) as S. rewrite H in S. cbn in S.
    destruct S as (_ & _ & Eg & _ & _ & _ & _ & [[-> _]|(pa & R & Ep)]); [exact L|].
    intros i pb Hi. rewrite Ep in Hi. rewrite Eg. rewrite mfind_mset in Hi. destruct (i =? id)%Z; [|apply (L i pb Hi)].
    inversion Hi; subst pb. destruct R as (_ & _ & _ & _ & Eo & _). rewrite Eo. intros Hin. pose proof (pi_plt p PIp _ Hin). lia.
  - pose proof (removePath_safe p e id PIp) as S. rewrite H in S. destruct S as (_ & _ & _ & S1 & S2 & S3).
    destruct (mfind id (ppaths p)) as [pa|] eqn:Hid; [|destruct (S1 eq_refl) as [-> _]; exact L].
    destruct a.
    + destruct (S3 eq_refl pa eq_refl) as (E1 & _ & E2 & _). intros i pb Hi. rewrite E1 in Hi. rewrite mfind_mdel in Hi by apply (pi_paths p PIp).
      destruct (Z.eqb_spec i id) as [->|Hn]; [discriminate|]. rewrite E2. intros [Eo|Hin]; [|apply (L i pb Hi Hin)].
      apply Hn. apply (pi_pinj p PIp i id pb pa Hi Hid). auto.
    + destruct (S2 eq_refl) as (E1 & E2 & _). unfold live. rewrite E1, E2. exact L.
  - pose proof (removeFilter_safe p f PIp) as S. rewrite H in S. destruct S as (_ & _ & _ & E1 & E2 & _). unfold live. rewrite E1, E2. exact L.
  - destruct (SD eq_refl) as [-> | ->]; [|exact L]. pose proof (stop_safe p e PIp) as S. rewrite H in S. destruct S as (_ & _ & S).
    destruct (S eq_refl) as (E & _). intros i pa Hi. rewrite E in Hi. discriminate.
  - destruct (mfind f (pfilters p)); [|inversion H; subst; exact L]. apply bind_ok in H. destruct H as (n & _ & H). inversion H; subst. exact L.
  - destruct (mfind f (pfilters p)); [|inversion H; subst; exact L]. apply bind_ok in H. destruct H as (n & _ & H). inversion H; subst. exact L.
Qed.

Lemma pathLive_true p pa : ~ In (pobj pa) (goneP p) -> pathLive p pa = true.
Proof.
  intros H. unfold pathLive. apply negb_true_iff. destruct (existsb _ _) eqn:E; [|reflexivity]. exfalso. apply H.
  apply existsb_exists in E. destruct E as (x & Hx & Ex). apply Nat.eqb_eq in Ex. subst. exact Hx.
Qed.
Definition noPUAF {A} (r : res A) : Prop := r <> Bad PathUseAfterFree.
Lemma safe_noPUAF {A} (r : res A) P : safe r P -> noPUAF r.
Proof. destruct r as [a|[]]; cbn; intros; unfold noPUAF; congruence || contradiction. Qed.
Lemma noPUAF_bind {A B} (r : res A) (f : A -> res B) : noPUAF r -> (forall a, r = Ok a -> noPUAF (f a)) -> noPUAF (bind r f).
Proof. destruct r as [a|b]; cbn; [auto|]. unfold noPUAF. intros H _ E. apply H. congruence. Qed.
Lemma noPUAF_ok {A} (a : A) : noPUAF (Ok a).
Proof. unfold noPUAF. discriminate. Qed.

Lemma usedBy_noPUAF p skip f l : (forall i pa, In (i, pa) l -> (match skip with Some s => i <> s | None => True end) -> ~ In (pobj pa) (goneP p)) ->
  noPUAF (usedBy p l skip f).
Proof.
  induction l as [|[i pa] t IH]; intros H; cbn [usedBy]; [apply noPUAF_ok|].
  assert (Ht : noPUAF (usedBy p t skip f)) by (apply IH; intros j pb Hj; apply (H j pb); right; exact Hj).
  destruct (match skip with Some s => (i =? s)%Z | None => false end) eqn:Es; [exact Ht|].
  rewrite pathLive_true.
  - cbn [negb]. destruct (hasFilter pa f); [|exact Ht]. apply noPUAF_bind; [exact Ht|]. intros; apply noPUAF_ok.
  - apply (H i pa); [left; reflexivity|]. destruct skip; [|exact I]. apply Z.eqb_neq. exact Es.
Qed.

Lemma dropMids_noPUAF e l : forall p, PI p -> ppool p = true -> noPUAF (dropMids p e l).
Proof.
  induction l as [|m t IH]; intros p PIp Hp; cbn [dropMids]; [apply noPUAF_ok|].
  destruct (mfind m (pfilters p)) as [x|] eqn:Hm.
  2:{ rewrite disc_none by exact Hm. cbn. unfold noPUAF. discriminate. }
  pose proof (disc_case (pnet p) e m DEFAULT_ID x (pi_wf p PIp) Hm) as S.
  apply noPUAF_bind; [apply (safe_noPUAF _ _ S)|]. intros [n b] E. rewrite E in S. cbn in S. destruct S as (W & Sk & _).
  destruct (dropFilter_ok (withNet p n) m (pi_withNet p n PIp W Sk) Hp) as (p1 & E1 & PI2 & Hp1 & _). rewrite E1. cbn [bind]. apply IH; assumption.
Qed.

Lemma deletePath_noPUAF p e id : PI p -> live p -> noPUAF (deletePath p e id).
Proof.
  intros PIp L. unfold deletePath. destruct (mfind id (ppaths p)) as [pa|] eqn:Hid; [|apply noPUAF_ok].
  rewrite (pathLive_true p pa (L id pa Hid)). cbn [negb].
  destruct (negb (mmem (porg pa) (pfilters p)) || negb (mmem (pdst pa) (pfilters p))) eqn:Eod; [apply noPUAF_ok|].
  destruct (negb (forallb _ _)); [apply noPUAF_ok|].
  apply orb_false_iff in Eod. destruct Eod as [_ Ed]. apply negb_false_iff in Ed. unfold mmem in Ed.
  destruct (mfind (pdst pa) (pfilters p)) as [xd|] eqn:Hd; [|discriminate].
  assert (Hp : ppool p = true) by (apply (pi_pool p PIp); intros E; rewrite E in Hd; discriminate).
  pose proof (disc_case (pnet p) e (pdst pa) (pdr pa) xd (pi_wf p PIp) Hd) as S.
  apply noPUAF_bind; [apply (safe_noPUAF _ _ S)|]. intros [n1 ok] E. rewrite E in S. cbn in S. destruct S as (W1 & Sk1 & _).
  destruct ok; cbn [negb]; [|apply noPUAF_ok].
  pose proof (pi_withNet p n1 PIp W1 Sk1) as PI1.
  apply noPUAF_bind; [apply dropMids_noPUAF; assumption|]. intros p2 E2.
  pose proof (dropMids_safe (withNet p n1) e (rev (pmid pa)) PI1 Hp) as S2. rewrite E2 in S2. destruct S2 as (PI2 & [K1 K2 K3 K4] & _). cbn in K1, K2, K3.
  assert (L2 : forall f, noPUAF (usedBy p2 (ppaths p2) (Some id) f)).
  { intros f. apply usedBy_noPUAF. intros i pb Hi _. rewrite K2. apply (L i pb). apply (In_mfind (ppaths p) None); [apply (pi_paths p PIp)|]. rewrite <- K1. exact Hi. }
  apply noPUAF_bind; [apply L2|]. intros uo _. apply noPUAF_bind; [apply L2|]. intros ud _.
  destruct (maybe_drop p2 ud (pdst pa) PI2) as (p3 & E3 & PI3 & [L1 L2' L3 L4] & _); [congruence|]. rewrite E3. cbn [bind].
  destruct (maybe_drop p3 uo (porg pa) PI3) as (p4 & E4 & _); [congruence|]. rewrite E4. cbn [bind]. apply noPUAF_ok.
Qed.

Lemma cmd_noPUAF p e c : PI p -> live p -> c <> Stop -> noPUAF (pcmd p e c).
Proof.
  intros PIp L Hs. destruct c as [id t made|id org dst ow dr mids|id|f| |f|f timed]; cbn [pcmd].
  - apply noPUAF_ok.
  - apply (safe_noPUAF _ _ (createPathEvent_safe p e id org dst ow dr mids PIp)).
  - unfold removePath. destruct (negb _); [apply noPUAF_ok|]. apply noPUAF_bind; [apply deletePath_noPUAF; assumption|].
    intros [p1 ok] _. destruct ok; apply noPUAF_ok.
  - unfold removeFilter. destruct (mfind f (pfilters p)) as [x|] eqn:Hf; [|apply noPUAF_ok].
    apply noPUAF_bind.
    + apply usedBy_noPUAF. intros i pa Hi _. apply (L i pa). apply (In_mfind (ppaths p) None); [apply (pi_paths p PIp)|exact Hi].
    + intros u _. destruct u; [apply noPUAF_ok|].
      assert (Hp : ppool p = true) by (apply (pi_pool p PIp); intros E; rewrite E in Hf; discriminate).
      destruct (dropFilter_ok p f PIp Hp) as (p1 & E1 & _). rewrite E1. cbn. apply noPUAF_ok.
  - contradiction.
  - destruct (mfind f (pfilters p)) as [x|] eqn:Hf; [|apply noPUAF_ok].
    destruct (sweepWriters_ok (pnet p) e f (mkeys (fwr x)) (pi_wf p PIp)) as (n' & E & _); [eauto|]. rewrite E. apply noPUAF_ok.
  - destruct (mfind f (pfilters p)) as [x|] eqn:Hf; [|apply noPUAF_ok].
    apply noPUAF_bind; [|intros; apply noPUAF_ok].
    apply (safe_noPUAF _ _ (sweepReaders_safe (pnet p) e f timed (mkeys (frd x)) (pi_wf p PIp) ltac:(eauto))).
Qed.

Lemma live_hist p h : hist stopDone p h -> live p.
Proof.
  induction 1 as [|p h e c p' a Hh IH Hc Ho]; [intros i pa Hi; discriminate|].
  apply (cmd_live p e c p' a); auto. apply (phist_inv p h (hist_phist _ _ _ Hh)).
Qed.

(** ** With exclusive mid filters, every registered path is complete. *)
Record complete (p : pipe) : Prop := {
  cp_names : forall i pa f, mfind i (ppaths p) = Some pa -> names pa f -> objOf p f <> None;
  cp_excl : forall i j pa pb m, mfind i (ppaths p) = Some pa -> mfind j (ppaths p) = Some pb -> i <> j -> In m (pmid pa) -> ~ names pb m
}.

Lemma complete_skel p p' : ppaths p' = ppaths p -> skel (pfilters p') = skel (pfilters p) -> complete p -> complete p'.
Proof.
  intros Ep Sk [C1 C2]. constructor; rewrite Ep; [|exact C2].
  intros i pa f Hi Hf. unfold objOf. rewrite (skel_find _ _ Sk). apply (C1 i pa f Hi Hf).
Qed.

Definition xok (p : pipe) (c : cmd) (p' : pipe) (a : bool) : Prop := exclusive p c /\ stopDone p c p' a.

Lemma cmd_complete p e c p' a : PI p -> complete p -> pcmd p e c = Ok (p', a) -> xok p c p' a -> complete p'.
Proof.
  intros PIp CP H [EX SD]. pose proof CP as [C1 C2]. destruct c as [id t made|id org dst ow dr mids|id|f| |f|f timed]; cbn [pcmd] in H.
  - inversion H; subst. destruct (createFilter p id t made) as [p1 b1] eqn:E. inversion H1; subst.
    destruct (createFilter_ok _ _ _ _ _ _ PIp E) as (_ & B & C). destruct a; [|rewrite (B eq_refl); exact CP].
    destruct (C eq_refl) as (_ & _ & E1 & _ & _ & _ & _ & E2). constructor; rewrite E1; [|exact C2].
    intros i pa f Hi Hf. unfold objOf. rewrite E2, mfind_mset. destruct (f =? id)%Z; [discriminate|apply (C1 i pa f Hi Hf)].
  - pose proof (createPathEvent_safe p e id org dst ow dr mids PIp) as S. rewrite H in S. cbn in S.
    destruct S as (_ & _ & Eg & _ & Sk & _ & _ & [[-> _]|(pa & R & Ep)]); [exact CP|].
    destruct R as (Hnew & Eo & Ed & Em & _ & Hnames & No & Nd & _). destruct EX as [X1 X2].
    constructor; rewrite Ep.
    + intros i pb f Hi Hf. unfold objOf. rewrite (skel_find _ _ Sk). rewrite mfind_mset in Hi. destruct (i =? id)%Z; [|apply (C1 i pb f Hi Hf)].
      inversion Hi; subst pb. specialize (Hnames f Hf). destruct (mfind f (pfilters p)); [discriminate|congruence].
    + intros i j pb pc m Hi Hj Hij Hm Hn. rewrite mfind_mset in Hi, Hj.
      destruct (Z.eqb_spec i id) as [->|Hi'], (Z.eqb_spec j id) as [->|Hj'].
      * congruence.
      * inversion Hi; subst pb. rewrite Em in Hm. apply (X1 j pc m Hj Hm Hn).
      * inversion Hj; subst pc. destruct (X2 i pb Hi) as [Y1 Y2]. destruct Hn as [->|[->|Hn]]; [rewrite Eo in Hm; auto|rewrite Ed in Hm; auto|].
        rewrite Em in Hn. apply (X1 i pb m Hi Hn). right. right. exact Hm.
      * apply (C2 i j pb pc m Hi Hj Hij Hm Hn).
  - pose proof (removePath_safe p e id PIp) as S. rewrite H in S. destruct S as (_ & _ & _ & S1 & S2 & S3).
    destruct (mfind id (ppaths p)) as [pa|] eqn:Hid; [|destruct (S1 eq_refl) as [-> _]; exact CP].
    destruct a.
    2:{ destruct (S2 eq_refl) as (E1 & _ & _ & E3). apply (complete_skel p p' E1 E3 CP). }
    destruct (S3 eq_refl pa eq_refl) as (E1 & _ & _ & _ & K). constructor; rewrite E1.
    + intros i pb f Hi Hf. rewrite mfind_mdel in Hi by apply (pi_paths p PIp). destruct (Z.eqb_spec i id) as [->|Hn]; [discriminate|].
      rewrite K; [apply (C1 i pb f Hi Hf)|]. intros [Hm|[[_ Hu]|[_ Hu]]].
      * apply (C2 id i pa pb f Hid Hi); auto.
      * apply Hu. exists i, pb. auto.
      * apply Hu. exists i, pb. auto.
    + intros i j pb pc m Hi Hj. rewrite mfind_mdel in Hi, Hj by apply (pi_paths p PIp).
      destruct (i =? id)%Z; [discriminate|]. destruct (j =? id)%Z; [discriminate|]. apply (C2 i j pb pc m Hi Hj).
  - pose proof (removeFilter_safe p f PIp) as S. rewrite H in S. destruct S as (_ & _ & S0 & E1 & _ & S).
    destruct a; [|rewrite (S0 eq_refl); exact CP]. destruct (S eq_refl) as [E2 Hno]. constructor; rewrite E1; [|exact C2].
    intros i pa g Hi Hg. rewrite (objOf_mdel p p' f (pi_wf p PIp) E2). destruct (Z.eqb_spec g f) as [->|]; [exfalso; apply (Hno i pa Hi Hg)|apply (C1 i pa g Hi Hg)].
  - destruct (SD eq_refl) as [-> | ->]; [|exact CP]. pose proof (stop_safe p e PIp) as S. rewrite H in S. destruct S as (_ & _ & S).
    destruct (S eq_refl) as (E & _). constructor; rewrite E; intros; discriminate.
  - destruct (mfind f (pfilters p)) as [x|] eqn:Hf; [|inversion H; subst; exact CP].
    destruct (sweepWriters_ok (pnet p) e f (mkeys (fwr x)) (pi_wf p PIp)) as (n' & E & _ & Sk & _); [eauto|]. rewrite E in H. inversion H; subst.
    apply (complete_skel p); auto.
  - destruct (mfind f (pfilters p)) as [x|] eqn:Hf; [|inversion H; subst; exact CP].
    pose proof (sweepReaders_safe (pnet p) e f timed (mkeys (frd x)) (pi_wf p PIp) ltac:(eauto)) as S.
    apply bind_ok in H. destruct H as (n' & E & H). rewrite E in S. cbn in S. destruct S as (_ & Sk & _). inversion H; subst.
    apply (complete_skel p); auto.
Qed.

Lemma complete_hist p h : hist xok p h -> complete p.
Proof.
  induction 1 as [|p h e c p' a Hh IH Hc Ho]; [constructor; intros; discriminate|].
  apply (cmd_complete p e c p' a); auto. apply (phist_inv p h (hist_phist _ _ _ Hh)).
Qed.

(** ** The limit on inputs. *)
Lemma lim_mdel n n' f : WF n -> fs n' = mdel f (fs n) -> LIM n -> LIM n'.
Proof.
  intros W E L g x Hx. rewrite E, mfind_mdel in Hx by apply (wf_sorted _ W). destruct (g =? f)%Z; [discriminate|]. apply (L g x Hx).
Qed.
Lemma lim_dropFilter p f p' : PI p -> ppool p = true -> dropFilter p f = Ok p' -> LIM (pnet p) -> LIM (pnet p').
Proof.
  intros PIp Hp E L. destruct (dropFilter_ok p f PIp Hp) as (p1 & E1 & _ & _ & _ & _ & Ef & _). rewrite E in E1. inversion E1; subst.
  apply (lim_mdel (pnet p) (pnet p1) f (pi_wf p PIp) Ef L).
Qed.
Lemma lim_dropMids e l : forall p p', PI p -> ppool p = true -> dropMids p e l = Ok p' -> LIM (pnet p) -> LIM (pnet p').
Proof.
  induction l as [|m t IH]; intros p p' PIp Hp H L; cbn [dropMids] in H; [inversion H; subst; exact L|].
  apply bind_ok in H. destruct H as ([n b] & H1 & H). apply bind_ok in H. destruct H as (p1 & H2 & H).
  destruct (mfind m (pfilters p)) as [x|] eqn:Hm; [|rewrite disc_none in H1 by exact Hm; discriminate].
  pose proof (disc_case (pnet p) e m DEFAULT_ID x (pi_wf p PIp) Hm) as S. rewrite H1 in S. cbn in S. destruct S as (W & Sk & Sh).
  pose proof (pi_withNet p n PIp W Sk) as PI1. destruct (dropFilter_ok (withNet p n) m PI1 Hp) as (p1' & E1 & PI2 & Hp2 & _).
  rewrite H2 in E1. inversion E1; subst p1'. apply (IH p1 p' PI2 Hp2 H).
  apply (lim_dropFilter (withNet p n) m p1 PI1 Hp H2). apply (lim_shrink (pnet p) n Sk Sh L).
Qed.
Lemma lim_deletePath p e id p' b : PI p -> deletePath p e id = Ok (p', b) -> LIM (pnet p) -> LIM (pnet p').
Proof.
  intros PIp H L. unfold deletePath in H. destruct (mfind id (ppaths p)) as [pa|] eqn:Hid; [|inversion H; subst; exact L].
  destruct (negb (pathLive p pa)); [discriminate|].
  destruct (negb (mmem (porg pa) (pfilters p)) || negb (mmem (pdst pa) (pfilters p))) eqn:Eod; [inversion H; subst; exact L|].
  destruct (negb (forallb _ _)); [inversion H; subst; exact L|].
  apply orb_false_iff in Eod. destruct Eod as [_ Ed]. apply negb_false_iff in Ed. unfold mmem in Ed.
  destruct (mfind (pdst pa) (pfilters p)) as [xd|] eqn:Hd; [|discriminate].
  assert (Hp : ppool p = true) by (apply (pi_pool p PIp); intros E; rewrite E in Hd; discriminate).
  pose proof (disc_case (pnet p) e (pdst pa) (pdr pa) xd (pi_wf p PIp) Hd) as S.
  apply bind_ok in H. destruct H as ([n1 ok] & E & H). rewrite E in S. cbn in S. destruct S as (W1 & Sk1 & Sh1).
  assert (L1 : LIM n1) by apply (lim_shrink _ _ Sk1 Sh1 L).
  destruct ok; cbn [negb] in H; [|inversion H; subst; exact L1].
  pose proof (pi_withNet p n1 PIp W1 Sk1) as PI1.
  apply bind_ok in H. destruct H as (p2 & E2 & H).
  pose proof (dropMids_safe (withNet p n1) e (rev (pmid pa)) PI1 Hp) as S2. rewrite E2 in S2. destruct S2 as (PI2 & [K1 K2 K3 K4] & _). cbn in K3.
  pose proof (lim_dropMids e _ _ _ PI1 Hp E2 L1) as L2.
  apply bind_ok in H. destruct H as (uo & _ & H). apply bind_ok in H. destruct H as (ud & _ & H).
  apply bind_ok in H. destruct H as (p3 & E3 & H). apply bind_ok in H. destruct H as (p4 & E4 & H). inversion H; subst. cbn [pnet].
  destruct (maybe_drop p2 ud (pdst pa) PI2) as (p3' & E3' & PI3 & [M1 M2 M3 M4] & _); [congruence|].
  rewrite E3 in E3'. inversion E3'; subst p3'.
  assert (L3 : LIM (pnet p3)). { destruct ud; [inversion E3; subst; exact L2|]. apply (lim_dropFilter p2 (pdst pa) p3 PI2); auto. congruence. }
  destruct uo; [inversion E4; subst; exact L3|]. apply (lim_dropFilter p3 (porg pa) p4 PI3); auto. congruence.
Qed.

Lemma lim_stopPaths e l : forall p p' b, PI p -> stopPaths p e l = Ok (p', b) -> LIM (pnet p) -> LIM (pnet p').
Proof.
  induction l as [|i t IH]; intros p p' b PIp H L; cbn [stopPaths] in H; [inversion H; subst; exact L|].
  apply bind_ok in H. destruct H as ([p1 ok] & H1 & H). pose proof (lim_deletePath p e i p1 ok PIp H1 L) as L1.
  pose proof (deletePath_safe p e i PIp) as S. rewrite H1 in S. destruct S as (PI1 & _).
  destruct ok; [apply (IH p1 p' b PI1 H L1)|inversion H; subst; exact L1].
Qed.

Lemma cmd_lim p e c p' a : PI p -> LIM (pnet p) -> pcmd p e c = Ok (p', a) -> direct p c p' a -> LIM (pnet p').
Proof.
  intros PIp L H D. destruct c as [id t made|id org dst ow dr mids|id|f| |f|f timed]; cbn [pcmd] in H.
  - inversion H; subst. destruct (createFilter p id t made) as [p1 b1] eqn:E. inversion H1; subst.
    destruct (createFilter_ok _ _ _ _ _ _ PIp E) as (_ & B & C). destruct a; [|rewrite (B eq_refl); exact L].
    destruct (C eq_refl) as (_ & _ & _ & _ & _ & _ & _ & E2). intros g x Hx. change (fs (pnet p')) with (pfilters p') in Hx.
    rewrite E2, mfind_mset in Hx. destruct (g =? id)%Z; [inversion Hx; subst; cbn; lia|apply (L g x Hx)].
  - pose proof (createPathEvent_safe p e id org dst ow dr mids PIp) as S. rewrite H in S. cbn [safe] in S.
    destruct S as (_ & _ & _ & _ & _ & _ & S & _). apply S; [exact D|exact L].
  - unfold removePath in H. destruct (negb _); [inversion H; subst; exact L|]. apply bind_ok in H. destruct H as ([p1 ok] & H1 & H).
    pose proof (lim_deletePath p e id p1 ok PIp H1 L) as L1. destruct ok; inversion H; subst; exact L1.
  - unfold removeFilter in H. destruct (mfind f (pfilters p)) as [x|] eqn:Hf; [|inversion H; subst; exact L].
    apply bind_ok in H. destruct H as (u & _ & H). destruct u; [inversion H; subst; exact L|].
    assert (Hp : ppool p = true) by (apply (pi_pool p PIp); intros E; rewrite E in Hf; discriminate).
    apply bind_ok in H. destruct H as (p1 & H1 & H). inversion H; subst. apply (lim_dropFilter p f p' PIp Hp H1 L).
  - destruct a.
    + pose proof (stop_safe p e PIp) as S. rewrite H in S. destruct S as (_ & _ & S). destruct (S eq_refl) as (_ & E & _).
      intros g x Hx. change (fs (pnet p')) with (pfilters p') in Hx. rewrite E in Hx. discriminate.
    + unfold stop in H. destruct (ppool p); cbn [negb] in H; [|inversion H; subst; exact L].
      apply bind_ok in H. destruct H as ([p1 ok] & H1 & H). pose proof (lim_stopPaths e _ _ _ _ PIp H1 L) as L1.
      destruct ok; cbn [negb] in H; [|inversion H; subst; exact L1]. apply bind_ok in H. destruct H as (p3 & _ & H). discriminate.
  - destruct (mfind f (pfilters p)) as [x|] eqn:Hf; [|inversion H; subst; exact L].
    destruct (sweepWriters_ok (pnet p) e f (mkeys (fwr x)) (pi_wf p PIp)) as (n' & E & _ & Sk & O); [eauto|]. rewrite E in H. inversion H; subst.
    apply (lim_step (pnet p) n' Sk); [|exact L]. intros h y Hy. destruct (O h y Hy) as (y' & A & B). eauto.
  - destruct (mfind f (pfilters p)) as [x|] eqn:Hf; [|inversion H; subst; exact L].
    pose proof (sweepReaders_safe (pnet p) e f timed (mkeys (frd x)) (pi_wf p PIp) ltac:(eauto)) as S.
    apply bind_ok in H. destruct H as (n' & E & H). rewrite E in S. cbn in S. destruct S as (_ & Sk & Sh). inversion H; subst.
    apply (lim_shrink (pnet p) n' Sk Sh L).
Qed.

Lemma lim_hist p h : hist direct p h -> LIM (pnet p).
Proof.
  induction 1 as [|p h e c p' a Hh IH Hc Ho]; [intros f x Hx; discriminate|].
  apply (cmd_lim p e c p' a); auto. apply (phist_inv p h (hist_phist _ _ _ Hh)).
Qed.
