From Verif Require Import Base RingIface RingModel RingSpec RingProofs SlicedIface SlicedModel SlicedSpec.

Section Proofs.
Context {B : Type}.
Notation V := (pmeta * list B)%type.

(** Some FIFO state with the given visible parts. *)
Definition relP (s : sliced B) (p : pieces B) : Prop :=
  exists l g, RelQ (sring s) (mkFifo (room p) (waiting p) l (gone p) g None (owner p) (users p)) /\
    sin s = draft p.

Lemma relq_irrel (q : ring V) c pe l lo g g' h h' w r :
  RelQ q (mkFifo c pe l lo g h w r) -> RelQ q (mkFifo c pe l lo g' h' w r).
Proof. intros []. split; assumption. Qed.

Lemma removelast_firstn_last (l : list V) n : length l = S n -> removelast l = firstn n l.
Proof. intros H. rewrite removelast_firstn_len, H. reflexivity. Qed.

(** One slice. *)
Lemma push_one size m (q : ring V) c pe l lo w r (d : list B) : 1 <= c -> length d <= size ->
  RelQ q (mkFifo c pe l lo true None w r) ->
  exists q', pushSlice size m q d = SOk q' /\
    RelQ q' (mkFifo c ((if length pe <? c then pe else removelast pe) ++ [(m, d)]) l
               (if length pe <? c then lo else lo + 1) true None w r).
Proof.
  intros Hc Hd HR. unfold pushSlice.
  pose proof (full_iff _ _ HR) as HF. cbn [cap pending] in HF.
  pose proof (max_nz _ _ HR) as Hm.
  unfold getRear. rewrite Hm, HF.
  destruct (Nat.ltb_spec (length pe) c) as [Hlt|Hge]; cbn [negb].
  - destruct (Nat.ltb_spec size (length d)) as [|_]; [lia|].
    eexists. split; [reflexivity|].
    pose proof (relq_commit q _ (m, d) HR) as HC. cbn [cap pending] in HC.
    eapply relq_irrel. apply (HC Hlt).
  - assert (Hfull : length pe = c). { destruct HR as [_ _ _ _ _ Hl _ _ _ _ _]. cbn in Hl. lia. }
    assert (Hfuel : 1 <= rmax q). { apply Nat.eqb_neq in Hm. lia. }
    rewrite (force_ok q _ (rmax q) HR Hc Hfuel). cbn [cap pending].
    destruct (Nat.ltb_spec (length pe) c) as [|_]; [lia|].
    destruct (Nat.ltb_spec size (length d)) as [|_]; [lia|].
    eexists. split; [reflexivity|].
    pose proof (relq_flush q _ HR Hfull Hc) as HFl. cbn in HFl.
    pose proof (relq_commit _ _ (m, d) HFl) as HC. cbn [cap pending] in HC.
    eapply relq_irrel. apply HC. rewrite removelast_length. lia.
Qed.

Lemma keep_snoc n (old : list V) x new : 1 <= n -> length old <= n ->
  keep n ((if length old <? n then old else removelast old) ++ [x]) new = keep n old (x :: new).
Proof.
  intros Hn Ho. destruct (Nat.ltb_spec (length old) n) as [Hlt|Hge].
  - unfold keep. rewrite <- app_assoc. reflexivity.
  - assert (Hl : length old = n) by lia. clear Hge Ho.
    destruct n as [|n]; [lia|].
    rewrite (removelast_firstn_last old n Hl).
    unfold keep. rewrite <- app_assoc. cbn [app].
    assert (Hfl : length (firstn n old) = n) by (rewrite firstn_length; lia).
    assert (H1 : length (firstn n old ++ x :: new) = S (n + length new)) by (rewrite app_length; cbn; lia).
    assert (H2 : length (old ++ x :: new) = S (S (n + length new))) by (rewrite app_length; cbn; lia).
    rewrite H1, H2. replace (S n - 1) with n by lia.
    destruct (Nat.leb_spec (S (S (n + length new))) (S n)); [lia|].
    assert (Hf : firstn n (old ++ x :: new) = firstn n old) by (rewrite firstn_app, Hl; replace (n - S n) with 0 by lia; cbn; apply app_nil_r).
    rewrite Hf.
    destruct (Nat.leb_spec (S (n + length new)) (S n)) as [Hs|Hs].
    + destruct new as [|y t]; [|cbn in Hs; lia]. cbn [length]. f_equal.
      rewrite skipn_app, Hl. rewrite skipn_all2 by lia. replace (S (S (n + 0)) - 1 - S n) with 0 by lia. reflexivity.
    + f_equal.
      * rewrite firstn_app, Hfl. replace (n - n) with 0 by lia. cbn [firstn]. rewrite app_nil_r.
        rewrite firstn_firstn. f_equal. lia.
      * rewrite !skipn_app, Hl, Hfl. rewrite skipn_all2 by lia. rewrite (skipn_all2 old) by lia.
        cbn [app]. f_equal. lia.
Qed.

Lemma push_all size m c l w r : 1 <= c -> forall ds (q : ring V) pe lo, Forall (fun d => length d <= size) ds ->
  RelQ q (mkFifo c pe l lo true None w r) ->
  exists q', pushSlices size m q ds = SOk q' /\
    RelQ q' (mkFifo c (keep c pe (map (fun d => (m, d)) ds)) l (lo + (length pe + length ds - c)) true None w r).
Proof.
  intros Hc. induction ds as [|d t IH]; intros q pe lo Hd HR; cbn [pushSlices map].
  - exists q. split; [reflexivity|].
    assert (Hl : length pe <= c). { destruct HR as [_ _ _ _ _ Hl _ _ _ _ _]. exact Hl. }
    unfold keep. rewrite app_nil_r. destruct (Nat.leb_spec (length pe) c); [|lia].
    replace (lo + (length pe + length (@nil (list B)) - c)) with lo by (cbn; lia). exact HR.
  - inversion Hd as [|? ? Hd1 Hd2]; subst.
    assert (Hl : length pe <= c). { destruct HR as [_ _ _ _ _ Hl _ _ _ _ _]. exact Hl. }
    destruct (push_one size m q c pe l lo w r d Hc Hd1 HR) as (q1 & H1 & R1). rewrite H1.
    destruct (IH q1 _ _ Hd2 R1) as (q2 & H2 & R2). exists q2. split; [exact H2|].
    rewrite (keep_snoc c pe (m, d) _ Hc Hl) in R2.
    replace (lo + (length pe + length (d :: t) - c)) with
      ((if length pe <? c then lo else lo + 1) +
       (length ((if length pe <? c then pe else removelast pe) ++ [(m, d)]) + length t - c)); [exact R2|].
    rewrite app_length. cbn [length]. destruct (Nat.ltb_spec (length pe) c); [lia|].
    rewrite removelast_length. lia.
Qed.

Lemma ids_same (q : ring V) f : RelQ q f -> rids q = rnames f.
Proof. intros []. assumption. Qed.

Lemma sstep_ok s p r : relP s p -> 1 <= room p ->
  Forall (fun d => length d <= ssize s) (sin s) ->
  (match r with AddSlice d => length d <= ssize s | _ => True end) ->
  exists s', sstep s r = SOk (s', snd (p_step p r)) /\ relP s' (fst (p_step p r)) /\ ssize s' = ssize s /\
     Forall (fun d => length d <= ssize s) (sin s').
Proof.
  intros (l & g & HR & Hin) Hc Hsz Hr. destruct r as [| |d|m| | | |]; cbn [sstep p_step].
  - pose proof (full_iff _ _ HR) as HF. cbn [cap pending] in HF. pose proof (max_nz _ _ HR) as Hm.
    unfold getRear. rewrite Hm, HF. exists s. cbn [fst snd].
    split; [destruct (length (waiting p) <? room p); reflexivity|]. split; [|split; [reflexivity|exact Hsz]].
    exists l, g. split; assumption.
  - exists s. split; [reflexivity|]. split; [|split; [reflexivity|exact Hsz]]. exists l, g. split; assumption.
  - unfold setSlice, MAX_SLICES. rewrite Hin. rewrite Nat.leb_antisym.
    destruct (length (draft p) <? 16); cbn [negb fst snd].
    + eexists. split; [reflexivity|]. split; [|split; [reflexivity|]].
      * exists l, g. split; [exact HR|]. reflexivity.
      * cbn [sin]. apply Forall_app. rewrite <- Hin. split; [exact Hsz|]. constructor; [exact Hr|constructor].
    + exists s. split; [reflexivity|]. split; [|split; [reflexivity|exact Hsz]]. exists l, g. split; assumption.
  - pose proof (relq_irrel _ _ _ _ _ g true None None _ _ HR) as HR1.
    destruct (push_all (ssize s) m _ _ _ _ Hc (sin s) _ _ _ Hsz HR1) as (q' & Hq' & R').
    rewrite Hq'. rewrite (ids_same _ _ R'). cbn [rnames fst snd].
    eexists. split; [reflexivity|]. split; [|split; [reflexivity|constructor]].
    exists l, true. cbn [sring sin draft room waiting gone owner users]. rewrite <- Hin. split; [|reflexivity].
    rewrite map_length. exact R'.
  - unfold getFront. rewrite (empty_iff _ _ HR). cbn [pending].
    destruct (waiting p) as [|x t] eqn:Ew; cbn [length Nat.eqb hd_error fst snd].
    + exists s. split; [reflexivity|]. split; [|split; [reflexivity|exact Hsz]].
      exists l, g. split; [rewrite Ew; exact HR|assumption].
    + unfold slot_read.
      assert (Hx : nth_error (rslots (sring s)) (rfront (sring s)) = Some x).
      { destruct HR as [Hp Hf Hrr Hs Hcc Hl Hcont Hlast Hlo Hw Hi]. cbn in *.
        specialize (Hcont 0). cbn in Hcont.
        rewrite <- Hcont by lia. f_equal. unfold pos. rewrite Nat.add_0_r. symmetry. apply Nat.mod_small. exact Hf. }
      rewrite Hx. exists s. split; [reflexivity|]. split; [|split; [reflexivity|exact Hsz]].
      exists l, g. split; [rewrite Ew; exact HR|assumption].
  - unfold removeFrame. rewrite (empty_iff _ _ HR), (max_nz _ _ HR). cbn [pending].
    destruct (waiting p) as [|x t] eqn:Ew; cbn [length Nat.eqb fst snd].
    + exists (mkSliced (sring s) (ssize s) (sin s)). split; [reflexivity|].
      split; [|split; [reflexivity|exact Hsz]]. exists l, g. split; [rewrite Ew; exact HR|assumption].
    + assert (Hw : rwid (sring s) = owner p) by (destruct HR; assumption). rewrite Hw.
      eexists. split; [reflexivity|]. split; [|split; [reflexivity|exact Hsz]].
      exists x, g. split; [|exact Hin].
      pose proof (relq_remove _ _ x t HR eq_refl) as HM. cbn in HM. exact HM.
  - exists s. rewrite (elements_ok _ _ HR). cbn [pending fst snd]. split; [reflexivity|].
    split; [|split; [reflexivity|exact Hsz]]. exists l, g. split; assumption.
  - exists s. assert (Hlo : rlost (sring s) = gone p) by (destruct HR; assumption). rewrite Hlo.
    cbn [fst snd]. split; [reflexivity|].
    split; [|split; [reflexivity|exact Hsz]]. exists l, g. split; assumption.
Qed.

Lemma p_room (p : pieces B) r : room (fst (p_step p r)) = room p.
Proof.
  destruct r; cbn [p_step]; try reflexivity.
  - destruct (_ <? _); reflexivity.
  - destruct (waiting p); reflexivity.
Qed.

Lemma srun_ok rs : forall s p, relP s p -> 1 <= room p ->
  Forall (fun d => length d <= ssize s) (sin s) -> slices_fit (ssize s) rs ->
  exists s', srun s rs = SOk (s', snd (p_run p rs)).
Proof.
  induction rs as [|r t IH]; intros s p HR Hc Hin Hf; cbn [srun p_run].
  - exists s. reflexivity.
  - inversion Hf as [|? ? Hr Ht]; subst.
    destruct (sstep_ok s p r HR Hc Hin Hr) as (s1 & H1 & R1 & Hz & Hin1). rewrite H1.
    destruct (p_step p r) as [p1 a] eqn:E. cbn [fst snd] in *.
    assert (Hroom : room p1 = room p). { pose proof (p_room p r) as HH. rewrite E in HH. exact HH. }
    destruct (IH s1 p1 R1) as (s2 & H2); [lia|rewrite Hz; exact Hin1|rewrite Hz; exact Ht|].
    destruct (p_run p1 t) as [p2 xs]. cbn [snd] in *. rewrite H2. exists s2. reflexivity.
Qed.
End Proofs.

Lemma sliced_refines {B} n size w ids (blank : pmeta * list B) rs : 2 <= n -> 1 <= size -> slices_fit size rs ->
  exists s0 s, createSliced n size w ids blank = SOk s0 /\
    srun s0 rs = SOk (s, snd (p_run (p_init (Nat.min n 250 - 1) w ids) rs)).
Proof.
  intros Hn Hs Hf. unfold createSliced.
  destruct (Nat.eqb_spec n 0) as [|_]; [lia|]. destruct (Nat.eqb_spec size 0) as [|_]; [lia|]. cbn [orb].
  exists (mkSliced (newRing n w ids blank) size []).
  destruct (srun_ok rs (mkSliced (newRing n w ids blank) size []) (p_init (Nat.min n 250 - 1) w ids)) as (s & H).
  - destruct (init_rel n w ids blank) as (HR & _); [lia|]. exists blank, false. split; [exact HR|reflexivity].
  - cbn. lia.
  - constructor.
  - exact Hf.
  - exists s. split; [reflexivity|exact H].
Qed.
