(** Proofs about the shared memory filter. *)
From Verif Require Import Base Bytes ShmModel ShmSpec.
Local Open Scope list_scope.
Local Open Scope Z_scope.

Definition applyOps (ops : list (Z * Z)) (m : memory) : memory := fold_left (fun m o => upd m (fst o) (snd o)) ops m.
Lemma stores_app : forall l1 l2 a, stores a (l1 ++ l2) = stores a l1 ++ stores (a + len l1) l2.
Proof.
  induction l1 as [|x l1 IH]; intros l2 a; cbn [stores app]; [unfold len; cbn; rewrite Z.add_0_r; reflexivity|]. rewrite IH. cbn [app]. do 2 f_equal. unfold len. cbn [length]. f_equal. lia.
Qed.
Lemma apply_stores : forall l a m x, applyOps (stores a l) m x = if (a <=? x) && (x <? a + len l) then nth (Z.to_nat (x - a)) l 0 else m x.
Proof.
  induction l as [|y l IH]; intros a m x.
  - cbn [stores applyOps fold_left]. unfold len. cbn [length]. destruct (Z.leb_spec a x), (Z.ltb_spec x (a + Z.of_nat 0)); cbn [andb]; try reflexivity; lia.
  - cbn [stores]. unfold applyOps. cbn [fold_left fst snd]. fold (applyOps (stores (a + 1) l) (upd m a y)). rewrite IH. unfold len in *. cbn [length]. unfold upd.
    destruct (Z.leb_spec (a + 1) x), (Z.ltb_spec x (a + 1 + Z.of_nat (length l))), (Z.leb_spec a x), (Z.ltb_spec x (a + Z.of_nat (S (length l)))), (Z.eqb_spec x a); cbn [andb]; try lia; try reflexivity.
    + replace (Z.to_nat (x - a)) with (S (Z.to_nat (x - (a + 1)))) by lia. reflexivity.
    + subst x. rewrite Z.sub_diag. reflexivity.
Qed.
Lemma apply_app o1 o2 m : applyOps (o1 ++ o2) m = applyOps o2 (applyOps o1 m).
Proof. unfold applyOps. apply fold_left_app. Qed.
Lemma le_len : forall n v, length (le n v) = n.
Proof. induction n as [|n IH]; intros v; cbn; [reflexivity|rewrite IH; reflexivity]. Qed.
Lemma rdle_le : forall n v, rdle (le n v) = v mod 256 ^ Z.of_nat n.
Proof.
  induction n as [|n IH]; intros v; [change (256 ^ Z.of_nat 0) with 1; rewrite Z.mod_1_r; reflexivity|]. cbn [le rdle fold_right]. change (fold_right (fun x a => x + 256 * a) 0 (le n (v / 256))) with (rdle (le n (v / 256))). rewrite IH.
  rewrite Nat2Z.inj_succ, Z.pow_succ_r by lia. assert (0 < 256 ^ Z.of_nat n) by (apply Z.pow_pos_nonneg; lia). rewrite Z.rem_mul_r by lia. reflexivity.
Qed.
Definition hdr (f : vframe) (n : Z) : bytes :=
  le 2 (vSeq f) ++ le 2 (pixCode (vPix f)) ++ le 2 (codecCode (vCodec f)) ++ le 2 (vH f) ++ le 2 (vW f) ++ le 4 (Z.quot (vTime f) 1000000) ++ le 4 (Z.rem (vTime f) 1000000) ++ le 4 n.
Lemma hdr_len f n : length (hdr f n) = 22%nat.
Proof. unfold hdr. rewrite !app_length, !le_len. reflexivity. Qed.
Lemma payload_stores f : writeFramePayload f = stores 2 (hdr f (len (vData f))).
Proof. unfold writeFramePayload, hdr. rewrite !stores_app. unfold len at 1 2 3 4 5 6 7. rewrite !le_len. reflexivity. Qed.

Definition image (m : memory) (r : bytes) : Prop := forall i, 0 <= i < len r -> m (2 + i) = nth (Z.to_nat i) r 0.
Definition wfrec (r : bytes) : Prop := 22 <= len r /\ len r = 22 + rdle (sub 18 4 r).
Definition recordOf (b : bool) (f : vframe) (s : wst) : option bytes :=
  match vCodec f with
  | H264 => if b && boundary f s then match frameData s with [] => None | d => Some (hdr f (len d) ++ d) end else None
  | RAW => if b then Some (hdr f (len (vData f)) ++ vData f) else None
  | _ => None
  end.
Definition okAddr (o : Z * Z) : Prop := (fst o = 0 /\ snd o = CHAR_WRITING) \/ 2 <= fst o < SHMSIZE.
Definition okOps (ops : list (Z * Z)) (r : option bytes) : Prop :=
  match r with
  | None => Forall (fun o => 2 <= fst o < 24) ops
  | Some r => wfrec r /\ exists body, ops = body ++ [(0, CHAR_READING)] /\ Forall okAddr body /\ forall m, image (applyOps body m) r
  end.
Lemma stores_addr : forall l a o, In o (stores a l) -> a <= fst o < a + len l.
Proof. induction l as [|x l IH]; intros a o H; [destruct H|]. unfold len in *. cbn [length]. destruct H as [<-|H]; [cbn; lia|]. apply IH in H. lia. Qed.
Lemma sub_hdr_len f n d : 0 <= n < 2 ^ 32 -> rdle (sub 18 4 (hdr f n ++ d)) = n.
Proof.
  intros H. unfold hdr. unfold sub.
  replace ((le 2 (vSeq f) ++ le 2 (pixCode (vPix f)) ++ le 2 (codecCode (vCodec f)) ++ le 2 (vH f) ++ le 2 (vW f) ++ le 4 (Z.quot (vTime f) 1000000) ++ le 4 (Z.rem (vTime f) 1000000) ++ le 4 n) ++ d)
    with ((le 2 (vSeq f) ++ le 2 (pixCode (vPix f)) ++ le 2 (codecCode (vCodec f)) ++ le 2 (vH f) ++ le 2 (vW f) ++ le 4 (Z.quot (vTime f) 1000000) ++ le 4 (Z.rem (vTime f) 1000000)) ++ (le 4 n ++ d)) by (rewrite <- !app_assoc; reflexivity).
  rewrite (skipn_app_len _ 18) by (rewrite !app_length, !le_len; reflexivity). rewrite (firstn_app_len _ 4) by apply le_len. rewrite rdle_le. apply Z.mod_small. exact H.
Qed.
Definition MAXDATA : Z := SHMSIZE - HEADER_SIZE.
Lemma rec_wf f d : len d <= MAXDATA -> wfrec (hdr f (len d) ++ d).
Proof.
  intros H. pose proof (len_nonneg d). unfold MAXDATA, SHMSIZE, HEADER_SIZE in H. unfold wfrec. rewrite sub_hdr_len by lia. rewrite len_app. assert (HL : len (hdr f (len d)) = 22) by (unfold len; rewrite hdr_len; reflexivity). rewrite HL. lia.
Qed.
Theorem process_ok b f s : (vCodec f = RAW -> len (vData f) <= MAXDATA) -> (vCodec f = H264 -> len (frameData s) <= MAXDATA) -> okOps (fst (process b f s)) (recordOf b f s).
Proof.
  intros HR HH. unfold process, recordOf. destruct (vCodec f); cbn [fst okOps]; try (constructor).
  - specialize (HH eq_refl). destruct (b && boundary f s); [|constructor]. unfold writeH264. destruct (frameData s) as [|x d0] eqn:ED.
    + rewrite app_nil_r, payload_stores. cbn [okOps]. apply Forall_forall. intros o O. apply stores_addr in O. unfold len in O. rewrite hdr_len in O. lia.
    + set (d := x :: d0) in *. cbn [okOps]. split; [apply rec_wf, HH|].
      exists (stores 2 (hdr f (len (vData f))) ++ [(0, CHAR_WRITING)] ++ stores 20 (le 4 (len d)) ++ stores HEADER_SIZE d). rewrite payload_stores. split; [rewrite <- !app_assoc; reflexivity|].
      unfold MAXDATA, HEADER_SIZE in *. split.
      * rewrite !Forall_app. repeat split; apply Forall_forall; intros o O.
        -- apply stores_addr in O. unfold len in O. rewrite hdr_len in O. right. unfold SHMSIZE. lia.
        -- destruct O as [<-|[]]. left. split; reflexivity.
        -- apply stores_addr in O. unfold len in O. rewrite le_len in O. right. unfold SHMSIZE. lia.
        -- apply stores_addr in O. right. lia.
      * intros m i Hi. rewrite !apply_app. replace (stores 20 (le 4 (len d))) with (stores 20 (le 4 (len d))) by reflexivity.
        rewrite apply_stores. rewrite len_app in Hi. assert (HL : len (hdr f (len d)) = 22) by (unfold len; rewrite hdr_len; reflexivity). rewrite HL in Hi.
        destruct (Z.leb_spec 24 (2 + i)), (Z.ltb_spec (2 + i) (24 + len d)); cbn [andb]; try lia.
        { rewrite app_nth2 by (rewrite hdr_len; lia). rewrite hdr_len. f_equal. lia. }
        rewrite app_nth1 by (rewrite hdr_len; lia). rewrite apply_stores. replace (len (le 4 (len d))) with 4 by (unfold len; rewrite le_len; reflexivity).
        set (pre := le 2 (vSeq f) ++ le 2 (pixCode (vPix f)) ++ le 2 (codecCode (vCodec f)) ++ le 2 (vH f) ++ le 2 (vW f) ++ le 4 (Z.quot (vTime f) 1000000) ++ le 4 (Z.rem (vTime f) 1000000)).
        assert (EH : forall n, hdr f n = pre ++ le 4 n) by (intros n; unfold hdr, pre; rewrite <- !app_assoc; reflexivity).
        assert (PL : length pre = 18%nat) by (unfold pre; rewrite !app_length, !le_len; reflexivity). rewrite !EH.
        destruct (Z.leb_spec 20 (2 + i)), (Z.ltb_spec (2 + i) (20 + 4)); cbn [andb]; try lia.
        { rewrite app_nth2 by (rewrite PL; lia). rewrite PL. f_equal. lia. }
        rewrite app_nth1 by (rewrite PL; lia). unfold applyOps at 1. cbn [fold_left fst snd]. unfold upd at 1. destruct (Z.eqb_spec (2 + i) 0); [lia|]. rewrite apply_stores.
        destruct (Z.leb_spec 2 (2 + i)), (Z.ltb_spec (2 + i) (2 + len (pre ++ le 4 (len (vData f))))); cbn [andb]; try lia.
        { rewrite app_nth1 by (rewrite PL; lia). f_equal. lia. }
        rewrite len_app in *. unfold len at 1 in H4. rewrite PL in H4. pose proof (len_nonneg (le 4 (len (vData f)))). lia.
  - specialize (HR eq_refl). destruct b; [|constructor]. cbn [okOps]. split; [apply rec_wf, HR|]. set (d := vData f) in *.
    exists (stores 2 (hdr f (len d)) ++ [(0, CHAR_WRITING)] ++ stores HEADER_SIZE d). rewrite payload_stores. unfold writeRAW. fold d. split; [rewrite <- !app_assoc; reflexivity|].
    unfold MAXDATA, HEADER_SIZE in *. split.
    + rewrite !Forall_app. repeat split; apply Forall_forall; intros o O.
      * apply stores_addr in O. unfold len in O. rewrite hdr_len in O. right. unfold SHMSIZE. lia.
      * destruct O as [<-|[]]. left. split; reflexivity.
      * apply stores_addr in O. right. lia.
    + intros m i Hi. rewrite !apply_app. rewrite apply_stores. rewrite len_app in Hi. assert (HL : len (hdr f (len d)) = 22) by (unfold len; rewrite hdr_len; reflexivity). rewrite HL in Hi.
      destruct (Z.leb_spec 24 (2 + i)), (Z.ltb_spec (2 + i) (24 + len d)); cbn [andb]; try lia.
      { rewrite app_nth2 by (rewrite hdr_len; lia). rewrite hdr_len. f_equal. lia. }
      rewrite app_nth1 by (rewrite hdr_len; lia). unfold applyOps at 1. cbn [fold_left fst snd]. unfold upd at 1. destruct (Z.eqb_spec (2 + i) 0); [lia|]. rewrite apply_stores, HL.
      destruct (Z.leb_spec 2 (2 + i)), (Z.ltb_spec (2 + i) (2 + 22)); cbn [andb]; try lia. f_equal. lia.
Qed.

(** *** The published records *)
Fixpoint stAfter (s : wst) (l : list vframe) : wst := match l with [] => s | f :: r => stAfter (snd (process true f s)) r end.
Fixpoint pubs (s : wst) (l : list (bool * vframe)) : list bytes :=
  match l with [] => [] | (b, f) :: r => (match recordOf b f s with Some x => [x] | None => [] end) ++ pubs (snd (process b f s)) r end.
Definition allPubs (s : wst) (l : list vframe) : list bytes := pubs s (map (fun f => (true, f)) l).
Lemma process_snd b f s : snd (process b f s) = snd (process true f s).
Proof. unfold process. destruct (vCodec f); reflexivity. Qed.
Lemma pubs_app : forall l1 l2 s, pubs s (l1 ++ l2) = pubs s l1 ++ pubs (stAfter s (map snd l1)) l2.
Proof. induction l1 as [|[b f] l1 IH]; intros l2 s; [reflexivity|]. cbn [app pubs map stAfter snd]. rewrite IH, <- app_assoc. rewrite (process_snd b f s). reflexivity. Qed.
Lemma stAfter_app : forall l1 l2 s, stAfter s (l1 ++ l2) = stAfter (stAfter s l1) l2.
Proof. induction l1 as [|f l1 IH]; intros l2 s; [reflexivity|]. cbn [app stAfter]. apply IH. Qed.
Lemma subseq_refl (A : Type) : forall l : list A, subseq l l.
Proof. induction l; constructor; assumption. Qed.
Lemma subseq_nil (A : Type) : forall l : list A, subseq [] l.
Proof. induction l; [apply sub_nil|apply sub_skip; assumption]. Qed.
Lemma subseq_app (A : Type) : forall l1 m1 : list A, subseq l1 m1 -> forall l2 m2, subseq l2 m2 -> subseq (l1 ++ l2) (m1 ++ m2).
Proof. induction 1; intros l2 m2 H2; cbn [app]; [exact H2|apply sub_skip, IHsubseq, H2|apply sub_take, IHsubseq, H2]. Qed.
Lemma subseq_trans (A : Type) : forall l m : list A, subseq l m -> forall k, subseq m k -> subseq l k.
Proof.
  intros l m H k K. revert l H. induction K as [|x m k K IH|x m k K IH]; intros l H; [exact H|apply sub_skip, IH, H|].
  inversion H as [|? l0 ? H0|? l0 ? H0]; subst; [apply sub_skip, IH, H0|apply sub_take, IH, H0].
Qed.
Lemma subseq_prefix (A : Type) (l1 l2 : list A) : subseq l1 (l1 ++ l2).
Proof. rewrite <- (app_nil_r l1) at 1. apply subseq_app; [apply subseq_refl|apply subseq_nil]. Qed.
Lemma pubs_all : forall l s, subseq (pubs s l) (allPubs s (map snd l)).
Proof.
  induction l as [|[b f] l IH]; intros s; [apply sub_nil|]. unfold allPubs in *. cbn [map snd pubs]. apply subseq_app; [|rewrite process_snd; apply IH].
  destruct b; [apply subseq_refl|]. unfold recordOf. destruct (vCodec f); cbn [andb]; apply subseq_nil.
Qed.
Lemma allPubs_app l1 l2 s : allPubs s (l1 ++ l2) = allPubs s l1 ++ allPubs (stAfter s l1) l2.
Proof. unfold allPubs. rewrite map_app, pubs_app. do 2 f_equal. rewrite map_map. cbn [snd]. rewrite map_id. reflexivity. Qed.

(** *** The interleaving *)
Definition phase (w : world) (p : list bytes) : Prop :=
  (mem w 0 = CHAR_WRITING /\ rd_ w = Idle /\ p = seen w /\ Forall (fun o => 2 <= fst o < 24) (pend w)) \/
  (exists r, wfrec r /\ p = seen w ++ [r] /\
    ((mem w 0 = CHAR_WRITING /\ rd_ w = Idle /\ exists body, pend w = body ++ [(0, CHAR_READING)] /\ Forall okAddr body /\ image (applyOps body (mem w)) r) \/
     (mem w 0 = CHAR_READING /\ pend w = [] /\ image (mem w) r /\ (rd_ w = Idle \/ exists k, (k <= length r)%nat /\ rd_ w = Copy (firstn k r))))).
Definition bounded (fs : list vframe) : Prop := forall l1 f l2, fs = l1 ++ f :: l2 ->
  (vCodec f = RAW -> len (vData f) <= MAXDATA) /\ (vCodec f = H264 -> len (frameData (stAfter wst0 l1)) <= MAXDATA).
Record winv (fs : list vframe) (w : world) : Prop := {
  v_log : fs = map snd (wlog w) ++ inp w; v_wr : wr w = stAfter wst0 (map snd (wlog w)); v_ph : phase w (pubs wst0 (wlog w)) }.
Lemma image_upd0 m v r : image m r -> image (upd m 0 v) r.
Proof. intros I i Hi. unfold upd. destruct (Z.eqb_spec (2 + i) 0); [lia|]. apply I, Hi. Qed.
Lemma wstep_inv fs w : bounded fs -> winv fs w -> exists w', wstep w = Some w' /\ winv fs w'.
Proof.
  intros B [L S P]. unfold wstep. destruct (pend w) as [|[a v] r] eqn:EP.
  - destruct (inp w) as [|f rest] eqn:EI; [exists w; split; [reflexivity|constructor; [rewrite EI; exact L|exact S|exact P]]|].
    destruct (process (mem w 0 =? CHAR_WRITING) f (wr w)) as [ops s] eqn:PR. eexists. split; [reflexivity|].
    pose proof (B _ _ _ L) as [B1 B2]. rewrite <- S in B2. pose proof (process_ok (mem w 0 =? CHAR_WRITING) f (wr w) B1 B2) as OK. rewrite PR in OK. cbn [fst] in OK.
    assert (PU : pubs wst0 (wlog w ++ [(mem w 0 =? CHAR_WRITING, f)]) = pubs wst0 (wlog w) ++ match recordOf (mem w 0 =? CHAR_WRITING) f (wr w) with Some x => [x] | None => [] end).
    { rewrite pubs_app. cbn [pubs]. rewrite <- S, app_nil_r. reflexivity. }
    constructor; cbn [wlog inp wr].
    + rewrite map_app, <- app_assoc. exact L.
    + rewrite map_app, stAfter_app, <- S. cbn [map stAfter snd]. rewrite <- (process_snd (mem w 0 =? CHAR_WRITING)), PR. reflexivity.
    + rewrite PU. destruct P as [(M & R & E & _)|(x & WX & E & [(M & R & body & EB & _)|(M & EB & I & R)])].
      * assert (EW : (mem w 0 =? CHAR_WRITING) = true) by (rewrite M; reflexivity). rewrite EW in *. destruct (recordOf true f (wr w)) as [x|]; cbn [okOps] in OK.
        -- destruct OK as (WX & body & EB & OA & OI). right. exists x. split; [exact WX|]. cbn [seen]. split; [rewrite E; reflexivity|]. left. cbn [mem rd_ pend]. split; [exact M|]. split; [exact R|]. exists body. split; [exact EB|]. split; [exact OA|apply OI].
        -- left. cbn [mem rd_ seen pend]. rewrite app_nil_r. auto.
      * rewrite EP in EB. destruct body; discriminate.
      * assert (EW : (mem w 0 =? CHAR_WRITING) = false) by (rewrite M; reflexivity). rewrite EW in *.
        assert (NR : recordOf false f (wr w) = None /\ ops = []). { unfold recordOf, process in *. destruct (vCodec f); injection PR as <- _; split; reflexivity. }
        destruct NR as [-> ->]. rewrite app_nil_r. right. exists x. split; [exact WX|]. cbn [seen]. split; [exact E|]. right. cbn [mem pend rd_]. auto.
  - destruct P as [(M & R & E & F)|(x & WX & E & [(M & R & body & EB & OA & OI)|(M & EB & I & R)])].
    + rewrite EP in F. pose proof (Forall_inv F) as F1. pose proof (Forall_inv_tail F) as F2. cbn [fst] in F1. destruct (Z.leb_spec 0 a), (Z.ltb_spec a SHMSIZE); try (unfold SHMSIZE in *; lia). cbn [andb].
      eexists. split; [reflexivity|]. constructor; cbn [wlog inp wr]; try assumption. left. cbn [mem rd_ seen pend]. split; [unfold upd; destruct (Z.eqb_spec 0 a); [lia|exact M]|]. auto.
    + rewrite EP in EB. destruct body as [|o body].
      * cbn [app] in EB. injection EB as -> -> ->. change ((0 <=? 0) && (0 <? SHMSIZE)) with true. cbv iota. eexists. split; [reflexivity|]. constructor; cbn [wlog inp wr]; try assumption.
        right. exists x. split; [exact WX|]. cbn [seen]. split; [exact E|]. right. cbn [mem pend rd_]. split; [reflexivity|]. split; [reflexivity|]. split; [apply image_upd0; exact OI|left; exact R].
      * cbn [app] in EB. injection EB as <- ->. pose proof (Forall_inv OA) as O1. pose proof (Forall_inv_tail OA) as O2. unfold okAddr in O1. cbn [fst snd] in O1.
        assert (IN : (0 <=? a) && (a <? SHMSIZE) = true) by (destruct (Z.leb_spec 0 a), (Z.ltb_spec a SHMSIZE); cbn; try reflexivity; unfold SHMSIZE in *; lia). rewrite IN.
        eexists. split; [reflexivity|]. constructor; cbn [wlog inp wr]; try assumption. right. exists x. split; [exact WX|]. cbn [seen]. split; [exact E|]. left. cbn [mem rd_ pend].
        split; [unfold upd; destruct (Z.eqb_spec 0 a); [destruct O1 as [[_ ->]|]; [reflexivity|lia]|exact M]|]. split; [exact R|]. exists body. split; [reflexivity|]. split; [exact O2|]. exact OI.
    + rewrite EP in EB. discriminate.
Qed.
Lemma firstn_snoc (l : bytes) k : (k < length l)%nat -> firstn k l ++ [nth k l 0] = firstn (S k) l.
Proof. revert k. induction l as [|x l IH]; intros k H; [cbn in H; lia|]. destruct k; [reflexivity|]. cbn [firstn app nth]. rewrite IH by (cbn in H; lia). reflexivity. Qed.
Lemma sub_firstn off n (l : bytes) k : (off + n <= k)%nat -> sub off n (firstn k l) = sub off n l.
Proof. intros H. unfold sub. rewrite skipn_firstn_comm. rewrite firstn_firstn. f_equal. lia. Qed.
Lemma rstep_inv fs w : winv fs w -> winv fs (rstep w).
Proof.
  intros [L SW P]. unfold rstep. destruct P as [(M & R & E & F)|(x & WX & E & [(M & R & body & EB & OA & OI)|(M & EB & I & R)])].
  - rewrite R, M. change (CHAR_WRITING =? CHAR_READING) with false. cbv iota. constructor; try assumption. left. auto.
  - rewrite R, M. change (CHAR_WRITING =? CHAR_READING) with false. cbv iota. constructor; try assumption. right. exists x. split; [exact WX|]. split; [exact E|]. left. split; [exact M|]. split; [exact R|]. exists body. auto.
  - destruct R as [R|(k & K & R)].
    + rewrite R, M. change (CHAR_READING =? CHAR_READING) with true. cbv iota. constructor; cbn [wlog inp wr]; try assumption. right. exists x. split; [exact WX|]. cbn [seen]. split; [exact E|]. right. cbn [mem pend rd_]. split; [exact M|]. split; [exact EB|]. split; [exact I|]. right. exists 0%nat. split; [lia|reflexivity].
    + rewrite R. assert (LK : len (firstn k x) = Z.of_nat k) by (unfold len; rewrite firstn_length_le by exact K; reflexivity). rewrite LK. destruct WX as [W1 W2].
      assert (C : (Z.of_nat k <? 22) || (Z.of_nat k <? 22 + rdle (sub 18 4 (firstn k x))) = (k <? length x)%nat).
      { unfold len in *. destruct (Z.ltb_spec (Z.of_nat k) 22); cbn [orb].
        - symmetry. apply Nat.ltb_lt. lia.
        - rewrite sub_firstn by lia. rewrite <- W2. destruct (Z.ltb_spec (Z.of_nat k) (Z.of_nat (length x))); symmetry; [apply Nat.ltb_lt|apply Nat.ltb_ge]; lia. }
      rewrite C. destruct (Nat.ltb_spec k (length x)).
      * constructor; cbn [wlog inp wr]; try assumption. right. exists x. split; [split; assumption|]. cbn [seen]. split; [exact E|]. right. cbn [mem pend rd_]. split; [exact M|]. split; [exact EB|]. split; [exact I|]. right. exists (S k). split; [lia|].
        f_equal. rewrite (I (Z.of_nat k)) by (unfold len; lia). rewrite Nat2Z.id. apply firstn_snoc. assumption.
      * constructor; cbn [wlog inp wr]; try assumption. left. cbn [mem rd_ seen pend]. split; [reflexivity|]. split; [reflexivity|]. split; [|rewrite EB; constructor]. rewrite E. rewrite firstn_all2 by lia. reflexivity.
Qed.
Theorem run_inv fs : bounded fs -> forall sched w, winv fs w -> exists w', run sched w = Some w' /\ winv fs w'.
Proof.
  intros B. induction sched as [|[] sched IH]; intros w I; cbn [run]; [exists w; split; [reflexivity|exact I]| |].
  - destruct (wstep_inv fs w B I) as (w1 & -> & I1). apply IH, I1.
  - apply IH, rstep_inv, I.
Qed.
Lemma world0_inv fs : winv fs (world0 fs).
Proof. constructor; [reflexivity|reflexivity|]. left. cbn. repeat split. constructor. Qed.
Theorem seen_published fs sched : bounded fs -> exists w, run sched (world0 fs) = Some w /\ subseq (seen w) (allPubs wst0 fs).
Proof.
  intros B. destruct (run_inv fs B sched (world0 fs) (world0_inv fs)) as (w & R & [L _ P]). exists w. split; [exact R|].
  apply (subseq_trans _ _ (pubs wst0 (wlog w))).
  - destruct P as [(_ & _ & -> & _)|(x & _ & -> & _)]; [apply subseq_refl|apply subseq_prefix].
  - apply (subseq_trans _ _ (allPubs wst0 (map snd (wlog w)))); [apply pubs_all|]. rewrite L, allPubs_app. apply subseq_prefix.
Qed.

(** *** Raw video *)
Lemma allPubs_raw : forall fs s, Forall (fun f => vCodec f = RAW) fs -> allPubs s fs = map (fun f => hdr f (len (vData f)) ++ vData f) fs /\ stAfter s fs = s.
Proof.
  induction fs as [|f fs IH]; intros s H; [split; reflexivity|]. pose proof (Forall_inv H) as H1. pose proof (Forall_inv_tail H) as H2. cbn beta in H1. unfold allPubs in *. cbn [map pubs stAfter].
  assert (E : process true f s = (writeFramePayload f ++ writeRAW (vData f), s)) by (unfold process; rewrite H1; reflexivity). rewrite E. cbn [snd]. unfold recordOf. rewrite H1. destruct (IH s H2) as [E1 E2]. rewrite E1, E2. split; reflexivity.
Qed.
Lemma bounded_raw fs : Forall (fun f => vCodec f = RAW /\ len (vData f) <= MAXDATA) fs -> bounded fs.
Proof.
  intros H l1 f l2 ->. rewrite Forall_app in H. destruct H as [_ H]. apply Forall_inv in H. cbn beta in H. destruct H as [H1 H2]. rewrite H1. split; [auto|discriminate].
Qed.
(** *** Header fields *)
Lemma pixOf_code p : pixOf (pixCode p mod 2 ^ 16) = p.
Proof. destruct p; reflexivity. Qed.
Lemma codecOf_code c : c = H264 \/ c = RAW \/ c = VP8 \/ c = MJPEG -> codecOf (codecCode c mod 2 ^ 16) = c.
Proof. intros [->|[->|[->| ->]]]; reflexivity. Qed.
Lemma hdr_fields f n d :
  u16 0 (hdr f n ++ d) = vSeq f mod 2 ^ 16 /\ u16 2 (hdr f n ++ d) = pixCode (vPix f) mod 2 ^ 16 /\ u16 4 (hdr f n ++ d) = codecCode (vCodec f) mod 2 ^ 16 /\
  u16 6 (hdr f n ++ d) = vH f mod 2 ^ 16 /\ u16 8 (hdr f n ++ d) = vW f mod 2 ^ 16 /\
  u32 10 (hdr f n ++ d) = Z.quot (vTime f) 1000000 mod 2 ^ 32 /\ u32 14 (hdr f n ++ d) = Z.rem (vTime f) 1000000 mod 2 ^ 32 /\ u32 18 (hdr f n ++ d) = n mod 2 ^ 32.
Proof.
  assert (G : forall off k (a b c : bytes), length a = off -> length b = k -> sub off k ((a ++ b) ++ c) = b).
  { intros off k a b c A B. rewrite <- app_assoc. apply sub_app; assumption. }
  assert (P : forall k v, rdle (le k v) = v mod 256 ^ Z.of_nat k) by apply rdle_le.
  unfold u16, u32, hdr. change (2 ^ 16) with (256 ^ Z.of_nat 2). change (2 ^ 32) with (256 ^ Z.of_nat 4). rewrite <- !P. clear P.
  generalize (le_len 2 (vSeq f)) (le_len 2 (pixCode (vPix f))) (le_len 2 (codecCode (vCodec f))) (le_len 2 (vH f)) (le_len 2 (vW f)) (le_len 4 (Z.quot (vTime f) 1000000)) (le_len 4 (Z.rem (vTime f) 1000000)) (le_len 4 n).
  generalize (le 2 (vSeq f)) (le 2 (pixCode (vPix f))) (le 2 (codecCode (vCodec f))) (le 2 (vH f)) (le 2 (vW f)) (le 4 (Z.quot (vTime f) 1000000)) (le 4 (Z.rem (vTime f) 1000000)) (le 4 n).
  intros a b c e g h i j A B C E H H1 I J.
  repeat split; f_equal.
  - rewrite <- (app_nil_l a) at 1. rewrite <- !app_assoc. rewrite (app_assoc [] a). apply G; [reflexivity|exact A].
  - rewrite <- !app_assoc. rewrite (app_assoc a b). apply G; [exact A|exact B].
  - rewrite <- !app_assoc. rewrite (app_assoc a b), (app_assoc (a ++ b) c). apply G; [rewrite app_length; lia|exact C].
  - rewrite <- !app_assoc. rewrite (app_assoc a b), (app_assoc (a ++ b) c), (app_assoc ((a ++ b) ++ c) e). apply G; [rewrite !app_length; lia|exact E].
  - rewrite <- !app_assoc. rewrite (app_assoc a b), (app_assoc (a ++ b) c), (app_assoc ((a ++ b) ++ c) e), (app_assoc (((a ++ b) ++ c) ++ e) g). apply G; [rewrite !app_length; lia|exact H].
  - rewrite <- !app_assoc. rewrite (app_assoc a b), (app_assoc (a ++ b) c), (app_assoc ((a ++ b) ++ c) e), (app_assoc (((a ++ b) ++ c) ++ e) g), (app_assoc ((((a ++ b) ++ c) ++ e) ++ g) h). apply G; [rewrite !app_length; lia|exact H1].
  - rewrite <- !app_assoc. rewrite (app_assoc a b), (app_assoc (a ++ b) c), (app_assoc ((a ++ b) ++ c) e), (app_assoc (((a ++ b) ++ c) ++ e) g), (app_assoc ((((a ++ b) ++ c) ++ e) ++ g) h), (app_assoc (((((a ++ b) ++ c) ++ e) ++ g) ++ h) i). apply G; [rewrite !app_length; lia|exact I].
  - rewrite <- !app_assoc. rewrite (app_assoc a b), (app_assoc (a ++ b) c), (app_assoc ((a ++ b) ++ c) e), (app_assoc (((a ++ b) ++ c) ++ e) g), (app_assoc ((((a ++ b) ++ c) ++ e) ++ g) h), (app_assoc (((((a ++ b) ++ c) ++ e) ++ g) ++ h) i), (app_assoc ((((((a ++ b) ++ c) ++ e) ++ g) ++ h) ++ i) j). apply G; [rewrite !app_length; lia|exact J].
Qed.
Lemma hdr_payload f n d : payload (hdr f n ++ d) = d.
Proof. unfold payload. apply skipn_app_len, hdr_len. Qed.
Lemma hdr_headerOf f n d : fits f -> (vCodec f = H264 \/ vCodec f = RAW) -> headerOf (hdr f n ++ d) f.
Proof.
  intros (H1 & H2 & H3) C. destruct (hdr_fields f n d) as (F0 & F2 & F4 & F6 & F8 & F10 & F14 & _). unfold headerOf, copySeq, copyPix, copyCodec, copyHeight, copyWidth, copyTime.
  rewrite F0, F2, F4, F6, F8, F10, F14. split; [reflexivity|]. split; [apply pixOf_code|]. split; [apply codecOf_code; tauto|]. split; [apply Z.mod_small, H1|]. split; [apply Z.mod_small, H2|].
  rewrite Z.quot_div_nonneg, Z.rem_mod_nonneg by lia. rewrite (Z.mod_small (vTime f / 1000000)), (Z.mod_small (vTime f mod 1000000)).
  - pose proof (Z.div_mod (vTime f) 1000000). lia.
  - pose proof (Z.mod_pos_bound (vTime f) 1000000). lia.
  - split; [apply Z.div_pos; lia|apply Z.div_lt_upper_bound; lia].
Qed.
Lemma copyLength_hdr f d : len d <= MAXDATA -> copyLength (hdr f (len d) ++ d) = len d.
Proof. intros H. unfold copyLength, u32. apply sub_hdr_len. pose proof (len_nonneg d). unfold MAXDATA, SHMSIZE, HEADER_SIZE in H. lia. Qed.

(** *** H.264 *)
Lemma parse_nal f n s : nalFrame f n -> In (nalType n) [1; 5; 6; 7; 8] -> parseNal (vData f) s = mkW false (seqNum s) (frameData s ++ [0; 0; 0; 1] ++ n).
Proof.
  intros (_ & NN & D) T. destruct n as [|x n]; [congruence|]. cbn [nalType] in T.
  assert (TT : (Z.land x 31 =? 9) = false /\ (Z.land x 31 =? 7) || (Z.land x 31 =? 8) || (Z.land x 31 =? 6) || (Z.land x 31 =? 5) || (Z.land x 31 =? 1) = true).
  { cbn [In] in T. destruct T as [<-|[<-|[<-|[<-|[<-|[]]]]]]; split; reflexivity. }
  destruct TT as [T1 T2]. unfold parseNal.
  destruct D as [-> | ->].
  - change (detectStartCode ([0; 0; 1] ++ x :: n)) with 3%nat. replace (len ([0; 0; 1] ++ x :: n) =? 0) with false by (symmetry; apply Z.eqb_neq; unfold len; cbn [app length]; lia).
    change (at_ ([0; 0; 1] ++ x :: n) 3) with x. cbn [Nat.eqb orb]. cbv zeta. rewrite T1, T2. reflexivity.
  - change (detectStartCode ([0; 0; 0; 1] ++ x :: n)) with 4%nat. replace (len ([0; 0; 0; 1] ++ x :: n) =? 0) with false by (symmetry; apply Z.eqb_neq; unfold len; cbn [app length]; lia).
    change (at_ ([0; 0; 0; 1] ++ x :: n) 4) with x. cbn [Nat.eqb orb]. cbv zeta. rewrite T1, T2. reflexivity.
Qed.
Lemma parse_aud f n s : nalFrame f n -> nalType n = 9 -> parseNal (vData f) s = mkW true (seqNum s) (frameData s).
Proof.
  intros (_ & NN & D) T. destruct n as [|x n]; [congruence|]. cbn [nalType] in T. unfold parseNal.
  destruct D as [-> | ->].
  - change (detectStartCode ([0; 0; 1] ++ x :: n)) with 3%nat. replace (len ([0; 0; 1] ++ x :: n) =? 0) with false by (symmetry; apply Z.eqb_neq; unfold len; cbn [app length]; lia).
    change (at_ ([0; 0; 1] ++ x :: n) 3) with x. cbn [Nat.eqb orb]. cbv zeta. rewrite T. reflexivity.
  - change (detectStartCode ([0; 0; 0; 1] ++ x :: n)) with 4%nat. replace (len ([0; 0; 0; 1] ++ x :: n) =? 0) with false by (symmetry; apply Z.eqb_neq; unfold len; cbn [app length]; lia).
    change (at_ ([0; 0; 0; 1] ++ x :: n) 4) with x. cbn [Nat.eqb orb]. cbv zeta. rewrite T. reflexivity.
Qed.
Lemma quiet f s : newFrame s = false -> vCodec f = H264 -> recordOf true f s = None /\ snd (process true f s) = parseNal (vData f) s.
Proof. intros N C. unfold recordOf, process. rewrite C. unfold restart, boundary. rewrite N, andb_false_r. split; reflexivity. Qed.
Lemma rest_run : forall us s, newFrame s = false -> Forall (fun '(f, n) => nalFrame f n /\ In (nalType n) [1; 5; 6; 7; 8]) us ->
  allPubs s (map fst us) = [] /\ stAfter s (map fst us) = mkW false (seqNum s) (frameData s ++ concat (map (fun '(_, n) => [0; 0; 0; 1] ++ n) us)).
Proof.
  induction us as [|[f n] us IH]; intros s N H.
  - split; [reflexivity|]. cbn [map stAfter concat]. rewrite app_nil_r. destruct s; cbn in *. rewrite N. reflexivity.
  - pose proof (Forall_inv H) as [H1 H2]. apply Forall_inv_tail in H. destruct (quiet f s N (proj1 H1)) as [Q1 Q2]. unfold allPubs in *. cbn [map fst pubs stAfter concat]. rewrite Q1, Q2, (parse_nal f n s H1 H2).
    destruct (IH (mkW false (seqNum s) (frameData s ++ [0; 0; 0; 1] ++ n)) eq_refl H) as [E1 E2]. rewrite E1, E2. cbn [seqNum frameData]. rewrite <- app_assoc. split; reflexivity.
Qed.
Lemma picture_run p s : wfPicture p -> newFrame s = false -> (seqOf p <> seqNum s \/ frameData s = [] /\ seqNum s = seqOf p mod 2 ^ 16) ->
  allPubs s (framesOf p) = (match frameData s with [] => [] | d => [hdr (fst (pFirst p)) (len d) ++ d] end) /\ stAfter s (framesOf p) = mkW false (seqOf p mod 2 ^ 16) (annexB p).
Proof.
  intros [(na & A & TA) U] N D. unfold framesOf, allPubs. cbn [map pubs stAfter]. destruct (quiet _ s N (proj1 A)) as [Q1 Q2]. rewrite Q1, Q2, (parse_aud _ na s A TA). clear Q1 Q2.
  unfold units in *. pose proof (Forall_inv U) as U1. apply Forall_inv_tail in U. unfold seqOf, annexB, units in *. destruct (pFirst p) as [f n]. cbn [fst] in *. destruct U1 as [U1 U2]. pose proof (proj1 U1) as C.
  cbn [map fst pubs stAfter concat]. set (s1 := mkW true (seqNum s) (frameData s)).
  assert (ER : restart f s1 = mkW (newFrame (restart f s1)) (vSeq f mod 2 ^ 16) []).
  { unfold restart, boundary, s1. cbn [newFrame seqNum frameData]. destruct (Z.eqb_spec (vSeq f) (seqNum s)) as [E|E]; cbn [negb andb]; [|reflexivity]. destruct D as [D|[D1 D2]]; [congruence|]. rewrite D1, <- D2. reflexivity. }
  assert (ES : snd (process true f s1) = mkW false (vSeq f mod 2 ^ 16) ([0; 0; 0; 1] ++ n)).
  { unfold process. rewrite C. cbn [snd]. rewrite (parse_nal f n _ U1 U2), ER. reflexivity. }
  assert (EP : recordOf true f s1 = match frameData s with [] => None | d => Some (hdr f (len d) ++ d) end).
  { unfold recordOf. rewrite C. unfold boundary, s1. cbn [newFrame seqNum frameData]. destruct (Z.eqb_spec (vSeq f) (seqNum s)) as [E|E]; cbn [negb andb]; [|reflexivity]. destruct D as [D|[D1 D2]]; [congruence|]. rewrite D1. reflexivity. }
  rewrite ES, EP. destruct (rest_run (pRest p) (mkW false (vSeq f mod 2 ^ 16) ([0; 0; 0; 1] ++ n)) eq_refl U) as [E1 E2]. unfold allPubs in E1. rewrite E1, E2. cbn [seqNum frameData]. rewrite app_nil_r. split; [|reflexivity].
  destruct (frameData s); reflexivity.
Qed.
Definition pairRec (pq : picture * picture) : bytes := hdr (fst (pFirst (snd pq))) (len (annexB (fst pq))) ++ annexB (fst pq).
Lemma annexB_nonempty p : annexB p <> [].
Proof. unfold annexB, units. cbn [map concat]. destruct (pFirst p). discriminate. Qed.
Lemma pictures_run : forall ps p s, s = mkW false (seqOf p mod 2 ^ 16) (annexB p) -> Forall wfPicture ps -> differ (p :: ps) ->
  allPubs s (concat (map framesOf ps)) = map pairRec (pairs (p :: ps)).
Proof.
  induction ps as [|q ps IH]; intros p s -> W D; [reflexivity|]. cbn [map concat]. rewrite allPubs_app. destruct D as [D1 D2].
  destruct (picture_run q (mkW false (seqOf p mod 2 ^ 16) (annexB p)) (Forall_inv W) eq_refl (or_introl D1)) as [E1 E2]. rewrite E1, E2. cbn [frameData]. rewrite (IH q _ eq_refl (Forall_inv_tail W) D2).
  change (pairs (p :: q :: ps)) with ((p, q) :: pairs (q :: ps)). cbn [map]. unfold pairRec at 2. cbn [fst snd]. pose proof (annexB_nonempty p). destruct (annexB p); [congruence|reflexivity].
Qed.
Lemma h264_run ps : Forall wfPicture ps -> differ ps -> allPubs wst0 (concat (map framesOf ps)) = map pairRec (pairs ps).
Proof.
  destruct ps as [|p ps]; intros W D; [reflexivity|]. cbn [map concat]. rewrite allPubs_app.
  assert (C : seqOf p <> seqNum wst0 \/ frameData wst0 = [] /\ seqNum wst0 = seqOf p mod 2 ^ 16).
  { cbn [seqNum frameData wst0]. destruct (Z.eq_dec (seqOf p) 1) as [->|N]; [right; split; reflexivity|left; exact N]. }
  destruct (picture_run p wst0 (Forall_inv W) eq_refl C) as [E1 E2]. rewrite E1, E2. cbn [frameData wst0 app]. apply pictures_run; [reflexivity|exact (Forall_inv_tail W)|exact D].
Qed.
(** Bounds: the accumulated data is never longer than the longest picture. *)
Lemma app_split {A} : forall (l1 l2 : list A) x r m1 m2, l1 ++ x :: r = m1 ++ m2 -> l2 = l2 -> (exists k, m1 = l1 ++ x :: k /\ r = k ++ m2) \/ (exists k, l1 = m1 ++ k /\ m2 = k ++ x :: r).
Proof.
  induction l1 as [|a l1 IH]; intros l2 x r m1 m2 E _.
  - destruct m1 as [|b m1]; cbn [app] in E; [right; exists []; split; [reflexivity|symmetry; exact E]|]. injection E as -> ->. left. exists m1. split; reflexivity.
  - destruct m1 as [|b m1]; cbn [app] in E; [right; exists (a :: l1); split; [reflexivity|symmetry; exact E]|]. injection E as -> E. destruct (IH l2 x r m1 m2 E eq_refl) as [(k & -> & ->)|(k & -> & ->)]; [left|right]; exists k; split; reflexivity.
Qed.
Lemma h264_partial_len p s l1 f l2 : wfPicture p -> newFrame s = false -> len (frameData s) <= MAXDATA -> len (annexB p) <= MAXDATA ->
  (seqOf p <> seqNum s \/ frameData s = [] /\ seqNum s = seqOf p mod 2 ^ 16) ->
  framesOf p = l1 ++ f :: l2 -> len (frameData (stAfter s l1)) <= MAXDATA.
Proof.
  intros [(na & A & TA) U] N B1 B2 D E. destruct l1 as [|a l1]; [exact B1|]. unfold framesOf in E. cbn [app] in E. injection E as <- E. cbn [stAfter].
  destruct (quiet _ s N (proj1 A)) as [_ Q2]. rewrite Q2, (parse_aud _ na s A TA). clear Q2. destruct l1 as [|b l1]; [exact B1|].
  unfold units in *. pose proof (Forall_inv U) as U1. apply Forall_inv_tail in U. unfold seqOf, annexB, units in *. destruct (pFirst p) as [g n]. cbn [fst map] in *. injection E as <- E. destruct U1 as [U1 U2]. pose proof (proj1 U1) as C.
  cbn [stAfter]. set (s1 := mkW true (seqNum s) (frameData s)).
  assert (ER : restart g s1 = mkW (newFrame (restart g s1)) (vSeq g mod 2 ^ 16) []).
  { unfold restart, boundary, s1. cbn [newFrame seqNum frameData]. destruct (Z.eqb_spec (vSeq g) (seqNum s)) as [Eq|Eq]; cbn [negb andb]; [|reflexivity]. destruct D as [D|[D1 D2]]; [congruence|]. rewrite D1, <- D2. reflexivity. }
  assert (ES : snd (process true g s1) = mkW false (vSeq g mod 2 ^ 16) ([0; 0; 0; 1] ++ n)).
  { unfold process. rewrite C. cbn [snd]. rewrite (parse_nal g n _ U1 U2), ER. reflexivity. }
  rewrite ES. clear ES ER s1.
  assert (UU : exists u v, pRest p = u ++ v /\ l1 = map fst u).
  { exists (firstn (length l1) (pRest p)), (skipn (length l1) (pRest p)). split; [symmetry; apply firstn_skipn|]. rewrite <- firstn_map, E, firstn_app, firstn_all, Nat.sub_diag. cbn [firstn]. rewrite app_nil_r. reflexivity. }
  destruct UU as (u & v & EU & ->). rewrite EU in U, B2. rewrite Forall_app in U. destruct (rest_run u (mkW false (vSeq g mod 2 ^ 16) ([0; 0; 0; 1] ++ n)) eq_refl (proj1 U)) as [_ ->]. cbn [frameData].
  cbn [map concat] in B2. rewrite map_app, concat_app in B2. rewrite !len_app in B2. rewrite !len_app. pose proof (len_nonneg (concat (map (fun '(_, n) => [0; 0; 0; 1] ++ n) v))). unfold bytes in *. lia.
Qed.
Lemma h264_bounded_from : forall ps s, Forall wfPicture ps -> Forall (fun p => len (annexB p) <= MAXDATA) ps -> newFrame s = false -> len (frameData s) <= MAXDATA ->
  (match ps with p :: _ => seqOf p <> seqNum s \/ frameData s = [] /\ seqNum s = seqOf p mod 2 ^ 16 | [] => True end) -> differ ps ->
  forall l1 f l2, concat (map framesOf ps) = l1 ++ f :: l2 -> len (frameData (stAfter s l1)) <= MAXDATA.
Proof.
  induction ps as [|p ps IH]; intros s W B N BS D DF l1 f l2 E; [destruct l1; discriminate|]. cbn [map concat] in E. symmetry in E.
  destruct (app_split l1 l1 f l2 _ _ E eq_refl) as [(k & E1 & _)|(k & -> & E2)].
  - eapply (h264_partial_len p s l1 f k); [exact (Forall_inv W)|exact N|exact BS|exact (Forall_inv B)|exact D|exact E1].
  - rewrite stAfter_app. destruct (picture_run p s (Forall_inv W) N D) as [_ ->]. eapply (IH _ (Forall_inv_tail W) (Forall_inv_tail B)); [reflexivity|exact (Forall_inv B)| | |exact E2].
    + destruct ps as [|q ps]; [constructor|]. left. cbn [seqNum]. exact (proj1 DF).
    + destruct ps as [|q ps]; [constructor|exact (proj2 DF)].
Qed.
Lemma bounded_h264 ps : Forall wfPicture ps -> Forall (fun p => len (annexB p) <= MAXDATA) ps -> differ ps -> bounded (concat (map framesOf ps)).
Proof.
  intros W B D l1 f l2 E.
  assert (C : vCodec f = H264).
  { assert (I : In f (concat (map framesOf ps))) by (rewrite E; apply in_or_app; right; left; reflexivity). apply in_concat in I. destruct I as (x & X & F). apply in_map_iff in X. destruct X as (p & <- & P).
    rewrite Forall_forall in W. destruct (W p P) as [(na & A & _) U]. unfold framesOf in F. destruct F as [<-|F]; [exact (proj1 A)|]. apply in_map_iff in F. destruct F as ((g & n) & <- & G). rewrite Forall_forall in U. exact (proj1 (proj1 (U _ G))). }
  rewrite C. split; [discriminate|]. intros _. apply (h264_bounded_from ps wst0 W B eq_refl) with (f := f) (l2 := l2); [vm_compute; discriminate| |exact D|exact E].
  destruct ps as [|p ps]; [constructor|]. cbn [seqNum frameData wst0]. destruct (Z.eq_dec (seqOf p) 1) as [->|NE]; [right; split; reflexivity|left; exact NE].
Qed.

(** *** A reader that keeps up *)
Lemma run_app : forall s1 s2 w, run (s1 ++ s2) w = match run s1 w with Some w => run s2 w | None => None end.
Proof. induction s1 as [|[] s1 IH]; intros s2 w; cbn [app run]; [reflexivity| |apply IH]. destruct (wstep w); [apply IH|reflexivity]. Qed.
Lemma drain fs : bounded fs -> forall n w, winv fs w -> length (pend w) = n -> exists s w', run s w = Some w' /\ winv fs w' /\ pend w' = [] /\ inp w' = inp w /\ wlog w' = wlog w.
Proof.
  intros B. induction n as [|n IH]; intros w I E.
  - exists [], w. split; [reflexivity|]. split; [exact I|]. destruct (pend w); [auto|discriminate].
  - destruct (pend w) as [|[a v] r] eqn:EP; [discriminate|]. destruct (wstep_inv fs w B I) as (w1 & W1 & I1).
    assert (F : pend w1 = r /\ inp w1 = inp w /\ wlog w1 = wlog w). { unfold wstep in W1. rewrite EP in W1. destruct ((0 <=? a) && (a <? SHMSIZE)); [|discriminate]. injection W1 as <-. auto. }
    destruct F as (F1 & F2 & F3). destruct (IH w1 I1) as (s & w2 & R & I2 & P2 & N2 & L2); [rewrite F1; cbn in E; lia|].
    exists (Writer :: s), w2. cbn [run]. rewrite W1. split; [exact R|]. split; [exact I2|]. split; [exact P2|]. split; congruence.
Qed.
Lemma rstep_keep w : pend (rstep w) = pend w /\ inp (rstep w) = inp w /\ wlog (rstep w) = wlog w.
Proof. unfold rstep. destruct (rd_ w); [destruct (mem w 0 =? CHAR_READING)|destruct ((len acc <? 22) || (len acc <? 22 + rdle (sub 18 4 acc)))]; auto. Qed.
Lemma copy_out : forall n k r w, wfrec r -> image (mem w) r -> rd_ w = Copy (firstn k r) -> (k + n = length r)%nat ->
  exists s w', run s w = Some w' /\ rd_ w' = Idle /\ mem w' 0 = CHAR_WRITING /\ pend w' = pend w /\ inp w' = inp w /\ wlog w' = wlog w /\ seen w' = seen w ++ [r] /\ Forall (fun x => x = Reader) s.
Proof.
  induction n as [|n IH]; intros k r w WR I R K.
  - exists [Reader], (rstep w). cbn [run]. split; [reflexivity|]. unfold rstep. rewrite R. destruct WR as [W1 W2]. rewrite firstn_all2 by lia.
    assert (C : (len r <? 22) || (len r <? 22 + rdle (sub 18 4 r)) = false) by (apply orb_false_iff; split; apply Z.ltb_ge; lia). rewrite C. cbn [rd_ mem pend inp wlog seen]. repeat split. constructor; [reflexivity|constructor].
  - assert (E : rstep w = mkWorld (mem w) (inp w) (pend w) (wr w) (Copy (firstn (S k) r)) (seen w) (wlog w)).
    { unfold rstep. rewrite R. assert (LK : len (firstn k r) = Z.of_nat k) by (unfold len; rewrite firstn_length_le by lia; reflexivity). rewrite LK. destruct WR as [W1 W2].
      assert (C : (Z.of_nat k <? 22) || (Z.of_nat k <? 22 + rdle (sub 18 4 (firstn k r))) = true).
      { apply orb_true_iff. destruct (Z.ltb_spec (Z.of_nat k) 22); [left; reflexivity|right]. rewrite sub_firstn by lia. rewrite <- W2. apply Z.ltb_lt. unfold len. lia. }
      rewrite C. rewrite (I (Z.of_nat k)) by (unfold len; lia). rewrite Nat2Z.id, firstn_snoc by lia. reflexivity. }
    destruct (IH (S k) r (rstep w) WR) as (s & w' & R' & X1 & X2 & X3 & X4 & X5 & X6 & X7); [rewrite E; exact I|rewrite E; reflexivity|lia|].
    exists (Reader :: s), w'. cbn [run]. rewrite E in *. cbn [pend inp wlog seen] in *. repeat split; try assumption. constructor; [reflexivity|assumption].
Qed.
Lemma keep_up fs : bounded fs -> forall l w, inp w = l -> winv fs w -> pend w = [] -> mem w 0 = CHAR_WRITING -> rd_ w = Idle -> wlog w = map (fun f => (true, f)) (map snd (wlog w)) ->
  exists s w', run s w = Some w' /\ seen w' = allPubs wst0 fs.
Proof.
  intros B. induction l as [|f l IH]; intros w EI I EP M R L.
  - exists [], w. split; [reflexivity|]. destruct I as [L0 _ P]. rewrite EI, app_nil_r in L0. rewrite L0. unfold allPubs. rewrite <- L. destruct P as [(_ & _ & -> & _)|(x & _ & _ & [(_ & _ & body & EB & _)|(M' & _)])]; [reflexivity|rewrite EP in EB; destruct body; discriminate|rewrite M in M'; discriminate].
  - destruct (wstep_inv fs w B I) as (w1 & W1 & I1). assert (F : inp w1 = l /\ wlog w1 = wlog w ++ [(true, f)]).
    { unfold wstep in W1. rewrite EP, EI, M in W1. change (CHAR_WRITING =? CHAR_WRITING) with true in W1. destruct (process true f (wr w)). injection W1 as <-. auto. }
    destruct F as (F1 & F2). destruct (drain fs B _ w1 I1 eq_refl) as (s2 & w2 & R2 & I2 & P2 & N2 & L2).
    assert (L2' : wlog w2 = map (fun f => (true, f)) (map snd (wlog w2))) by (rewrite L2, F2, !map_app, <- L; reflexivity).
    destruct (v_ph fs w2 I2) as [(M2 & R2' & _)|(x & WX & _ & [(_ & _ & body & EB & _)|(M2 & _ & IM & RD)])].
    + destruct (IH w2) as (s3 & w3 & R3 & E3); [congruence|exact I2|exact P2|exact M2|exact R2'|exact L2'|]. exists ((Writer :: s2) ++ s3), w3. split; [|exact E3]. rewrite run_app. cbn [run]. rewrite W1, R2. exact R3.
    + rewrite P2 in EB. destruct body; discriminate.
    + assert (RR : exists s w', run s w2 = Some w' /\ rd_ w' = Idle /\ mem w' 0 = CHAR_WRITING /\ pend w' = pend w2 /\ inp w' = inp w2 /\ wlog w' = wlog w2).
      { destruct RD as [RD|(k & K & RD)].
        - assert (E : rstep w2 = mkWorld (mem w2) (inp w2) (pend w2) (wr w2) (Copy []) (seen w2) (wlog w2)) by (unfold rstep; rewrite RD, M2; reflexivity).
          destruct (copy_out (length x) 0 x (rstep w2) WX) as (s & w' & Q & X1 & X2 & X3 & X4 & X5 & _); [rewrite E; exact IM|rewrite E; reflexivity|lia|]. exists (Reader :: s), w'. rewrite E in *. cbn [run pend inp wlog] in *. rewrite E. auto 10.
        - destruct (copy_out (length x - k) k x w2 WX IM RD) as (s & w' & Q & X1 & X2 & X3 & X4 & X5 & _); [lia|]. exists s, w'. auto 10. }
      destruct RR as (s3 & w3 & R3 & X1 & X2 & X3 & X4 & X5). destruct (run_inv fs B s3 w2 I2) as (w3' & R3' & I3). rewrite R3 in R3'. injection R3' as <-.
      destruct (IH w3) as (s4 & w4 & R4 & E4); [congruence|exact I3|congruence|exact X2|exact X1|rewrite X5; exact L2'|].
      exists ((Writer :: s2) ++ s3 ++ s4), w4. split; [|exact E4]. rewrite run_app. cbn [run]. rewrite W1, R2, run_app, R3. exact R4.
Qed.
Theorem reader_keeps_up fs : bounded fs -> exists s w, run s (world0 fs) = Some w /\ seen w = allPubs wst0 fs.
Proof. intros B. apply (keep_up fs B fs); try reflexivity. apply world0_inv. Qed.
