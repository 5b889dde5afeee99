(** Proofs about publishing segments. *)
From Coq Require Import Ascii String.
From Verif Require Import Base ZMap Bytes JsonModel CtlModel CtlSpec CtlProofs MpdModel MpdSpec.
Local Open Scope list_scope.
Local Open Scope Z_scope.

Lemma streqb_spec a b : reflect (a = b) (streqb a b).
Proof. unfold streqb. destruct (list_eq_dec ascii_dec a b); constructor; assumption. Qed.
Lemma streqb_refl a : streqb a a = true.
Proof. destruct (streqb_spec a a); congruence. Qed.

(** *** Files. *)
Lemma fget_fdel n k d : fget k (fdel n d) = if streqb n k then None else fget k d.
Proof.
  induction d as [|[x c] d IH]; [destruct (streqb n k); reflexivity|]. cbn [fdel filter fst]. fold (fdel n d).
  destruct (streqb_spec x n) as [->|N]; cbn [negb].
  - cbn [fget]. rewrite IH. destruct (streqb n k); reflexivity.
  - cbn [fget]. rewrite IH. destruct (streqb_spec n k) as [->|N2]; [|reflexivity]. destruct (streqb_spec x k); [congruence|reflexivity].
Qed.
Lemma fget_fput n c k d : fget k (fput n c d) = if streqb n k then Some c else fget k d.
Proof. unfold fput. cbn [fget]. rewrite fget_fdel. destruct (streqb n k); reflexivity. Qed.

(** *** Names. *)
Lemma dec_inj a b : 0 <= a < 18446744073709551616 -> 0 <= b < 18446744073709551616 -> uintText a = uintText b -> a = b.
Proof.
  intros A1 B1 E. unfold uintText in E.
  destruct (decimal_digits 20 a) as [DA _]; [change (10 ^ Z.of_nat 20) with 100000000000000000000; lia|].
  destruct (decimal_digits 20 b) as [DB _]; [change (10 ^ Z.of_nat 20) with 100000000000000000000; lia|].
  apply digits_value in DA, DB. rewrite E in DA. congruence.
Qed.
Lemma dec_digits a : 0 <= a < 18446744073709551616 -> Forall (fun c => digit c <> None) (uintText a) /\ uintText a <> [].
Proof.
  intros A1. unfold uintText. destruct (decimal_digits 20 a) as [DA NE]; [change (10 ^ Z.of_nat 20) with 100000000000000000000; lia|].
  split; [|apply NE; discriminate]. apply (digits_spec _ _ DA).
Qed.
Lemma sep_inj (x : ascii) a a' d d' : ~ In x d -> ~ In x d' -> a ++ x :: d = a' ++ x :: d' -> a = a' /\ d = d'.
Proof.
  intros N N'. revert a'. induction a as [|y a IH]; intros [|y' a'] E; cbn [app] in E.
  - injection E as E. split; [reflexivity|exact E].
  - injection E as E1 E2. exfalso. apply N. rewrite E2. apply in_or_app. right. left. reflexivity.
  - injection E as E1 E2. exfalso. apply N'. rewrite <- E2. apply in_or_app. right. left. reflexivity.
  - injection E as E1 E2. destruct (IH a' E2) as [-> ->]. subst. split; reflexivity.
Qed.
Lemma tail_inj (X : Type) (a a' e e' : list X) : length e = length e' -> a ++ e = a' ++ e' -> a = a' /\ e = e'.
Proof.
  intros L E. assert (LA: length a = length a') by (apply (f_equal (@length X)) in E; rewrite !app_length in E; lia).
  revert a' LA E. induction a as [|x a IH]; intros [|x' a'] LA E; cbn in LA; try lia; cbn [app] in E; [split; [reflexivity|exact E]|].
  injection E as E1 E2. destruct (IH a' ltac:(lia) E2) as [-> ->]. subst. split; reflexivity.
Qed.
Lemma digit_sep l : Forall (fun c => digit c <> None) l -> ~ In "_"%char l.
Proof. intros F I. rewrite Forall_forall in F. apply (F _ I). reflexivity. Qed.
Lemma u32_range z : 0 <= u32 z < 18446744073709551616.
Proof. unfold u32. pose proof (Z.mod_pos_bound z 4294967296 eq_refl). lia. Qed.
Lemma u32_inj a b : int32 a -> int32 b -> u32 a = u32 b -> a = b.
Proof. unfold int32, u32. intros A1 B1 E. Z.to_euclidean_division_equations. lia. Qed.
Lemma ext_length s : length (ext s) = 4%nat.
Proof. destruct s; reflexivity. Qed.
Lemma ext_inj s s' : ext s = ext s' -> s = s'.
Proof. destruct s, s'; try reflexivity; discriminate. Qed.

Lemma segName_shape p b id ts s : getSegmentName p b id ts (ext s) = (((p ++ b) ++ "_"%char :: uintText (u32 id)) ++ "_"%char :: uintText ts) ++ ext s.
Proof. unfold getSegmentName. cbn [lit list_ascii_of_string]. repeat (rewrite <- !app_assoc; cbn [app]). reflexivity. Qed.
Lemma initName_shape p b id s : getInitSegmentName p b id (ext s) = (((p ++ b) ++ "_"%char :: uintText (u32 id)) ++ "_"%char :: lit "init") ++ ext s.
Proof. unfold getInitSegmentName. cbn [lit list_ascii_of_string]. repeat (rewrite <- !app_assoc; cbn [app]). reflexivity. Qed.

Lemma segName_inj p b id ts s p' b' id' ts' s' :
  0 <= ts < 18446744073709551616 -> 0 <= ts' < 18446744073709551616 ->
  getSegmentName p b id ts (ext s) = getSegmentName p' b' id' ts' (ext s') ->
  p ++ b = p' ++ b' /\ u32 id = u32 id' /\ ts = ts' /\ s = s'.
Proof.
  intros T T' E. rewrite !segName_shape in E. apply tail_inj in E; [|rewrite !ext_length; reflexivity]. destruct E as [E EX].
  apply sep_inj in E; [|apply digit_sep, dec_digits, T|apply digit_sep, dec_digits, T']. destruct E as [E ET].
  apply sep_inj in E; [|apply digit_sep, dec_digits, u32_range|apply digit_sep, dec_digits, u32_range]. destruct E as [EB EI].
  repeat split; [exact EB|apply dec_inj in EI; try apply u32_range; exact EI|apply dec_inj in ET; assumption|apply ext_inj, EX].
Qed.
Lemma initName_inj p b id s p' b' id' s' :
  getInitSegmentName p b id (ext s) = getInitSegmentName p' b' id' (ext s') -> p ++ b = p' ++ b' /\ u32 id = u32 id' /\ s = s'.
Proof.
  intros E. rewrite !initName_shape in E. apply tail_inj in E; [|rewrite !ext_length; reflexivity]. destruct E as [E EX].
  apply sep_inj in E; [|intros [X|[X|[X|[X|[]]]]]; discriminate|intros [X|[X|[X|[X|[]]]]]; discriminate]. destruct E as [E ET].
  apply sep_inj in E; [|apply digit_sep, dec_digits, u32_range|apply digit_sep, dec_digits, u32_range]. destruct E as [EB EI].
  repeat split; [exact EB|apply dec_inj in EI; try apply u32_range; exact EI|apply ext_inj, EX].
Qed.
Lemma seg_not_init p b id ts s p' b' id' s' : 0 <= ts < 18446744073709551616 ->
  getSegmentName p b id ts (ext s) <> getInitSegmentName p' b' id' (ext s').
Proof.
  intros T E. rewrite segName_shape, initName_shape in E. apply tail_inj in E; [|rewrite !ext_length; reflexivity]. destruct E as [E EX].
  apply sep_inj in E; [|apply digit_sep, dec_digits, T|intros [X|[X|[X|[X|[]]]]]; discriminate]. destruct E as [_ E].
  pose proof (proj1 (dec_digits ts T)) as F. rewrite E in F. inversion F as [|? ? F1 _]. apply F1. reflexivity.
Qed.
Lemma not_mpd x s y : x ++ ext s <> y ++ lit ".mpd".
Proof. intros E. apply tail_inj in E; [|rewrite ext_length; reflexivity]. destruct E as [_ E]. destruct s; discriminate. Qed.
Lemma seg_not_mpd p b id ts s d : getSegmentName p b id ts (ext s) <> mpdPath d.
Proof. rewrite segName_shape. unfold mpdPath. rewrite app_assoc. apply not_mpd. Qed.
Lemma init_not_mpd p b id s d : getInitSegmentName p b id (ext s) <> mpdPath d.
Proof. rewrite initName_shape. unfold mpdPath. rewrite app_assoc. apply not_mpd. Qed.

(** *** Lists. *)
Lemma lastn_all X (l : list X) n : (length l <= n)%nat -> lastn n l = l.
Proof. intros L. unfold lastn. replace (length l - n)%nat with 0%nat by lia. reflexivity. Qed.
Lemma lastn_length X (l : list X) n : length (lastn n l) = Nat.min n (length l).
Proof. unfold lastn. rewrite skipn_length. lia. Qed.
Lemma lastn_snoc X (l : list X) n p : (1 <= n)%nat ->
  lastn n (l ++ [p]) = (if (n <=? length l)%nat then tl (lastn n l) else lastn n l) ++ [p].
Proof.
  intros N. unfold lastn. rewrite app_length. cbn [length]. destruct (Nat.leb_spec n (length l)) as [L|L].
  - replace (length l + 1 - n)%nat with (S (length l - n)) by lia. rewrite skipn_app. replace (S (length l - n) - length l)%nat with 0%nat by lia. cbn [skipn].
    f_equal. generalize (length l - n)%nat. clear. induction l as [|x l IH]; intros k; [destruct k; reflexivity|]. destruct k; [reflexivity|]. cbn [skipn]. apply IH.
  - replace (length l + 1 - n)%nat with 0%nat by lia. replace (length l - n)%nat with 0%nat by lia. reflexivity.
Qed.
Lemma lastn_incl X (l : list X) n x : In x (lastn n l) -> In x l.
Proof. unfold lastn. intros I. rewrite <- (firstn_skipn (length l - n) l). apply in_or_app. right. exact I. Qed.
Lemma lastn_map X Y (f : X -> Y) n l : lastn n (map f l) = map f (lastn n l).
Proof. unfold lastn. rewrite map_length, skipn_map. reflexivity. Qed.

(** *** The window. *)
Definition line (l : list publication) : list (Z * Z) := map (fun p => (pts p, pdur p)) l.
Lemma pop_window n l : (1 <= n)%nat -> (length l <= n)%nat ->
  popFront (Z.of_nat n) l 0 = if (n <=? length l)%nat then (match l with [] => 0 | x :: _ => fst x end, tl l) else (0, l).
Proof.
  intros N L. destruct l as [|x l]; [cbn [length popFront]; destruct (n <=? 0)%nat; reflexivity|]. cbn [popFront].
  destruct (Z.leb_spec (Z.of_nat n) (Z.of_nat (length (x :: l)))) as [H|H].
  - destruct (Nat.leb_spec n (length (x :: l))) as [_|H2]; [|lia]. destruct l as [|y l]; [reflexivity|]. cbn [popFront tl].
    destruct (Z.leb_spec (Z.of_nat n) (Z.of_nat (length (y :: l)))) as [H3|_]; [cbn [length] in *; lia|reflexivity].
  - destruct (Nat.leb_spec n (length (x :: l))) as [H2|_]; [lia|reflexivity].
Qed.
Definition leaving (n : nat) (log : list publication) : Z :=
  if (n <=? length log)%nat then match lastn n log with [] => 0 | q :: _ => pts q end else 0.
Lemma pop_log n log : (1 <= n)%nat -> exists l, popFront (Z.of_nat n) (line (lastn n log)) 0 = (leaving n log, l) /\
  forall p, l ++ [(pts p, pdur p)] = line (lastn n (log ++ [p])).
Proof.
  intros N. assert (L: length (line (lastn n log)) = Nat.min n (length log)) by (unfold line; rewrite map_length, lastn_length; reflexivity).
  rewrite pop_window by lia. rewrite L. unfold leaving. destruct (Nat.leb_spec n (length log)) as [H|H].
  - destruct (Nat.leb_spec n (Nat.min n (length log))) as [_|X]; [|lia]. eexists. split.
    + f_equal. destruct (lastn n log); reflexivity.
    + intros p. rewrite lastn_snoc by exact N. destruct (Nat.leb_spec n (length log)) as [_|X]; [|lia]. unfold line. rewrite map_app. cbn [map]. f_equal. destruct (lastn n log); reflexivity.
  - destruct (Nat.leb_spec n (Nat.min n (length log))) as [X|_]; [lia|]. eexists. split; [reflexivity|].
    intros p. rewrite lastn_snoc by exact N. destruct (Nat.leb_spec n (length log)) as [X|_]; [lia|]. unfold line. rewrite map_app. reflexivity.
Qed.

(** The publications whose files are on disk: those in the window, and those that started at 0. *)
Definition kept (n : nat) (log : list publication) : list publication := lastn n log ++ filter (fun p => pts p =? 0) log.
Lemma pts_inj log p q : NoDup (map pts log) -> In p log -> In q log -> pts p = pts q -> p = q.
Proof.
  induction log as [|x log IH]; [intros _ []|]. cbn [map]. intros N. inversion N as [|? ? N1 N2]; subst. intros [->|I] [->|J] E; try reflexivity.
  - exfalso. apply N1. rewrite E. apply in_map, J.
  - exfalso. apply N1. rewrite <- E. apply in_map, I.
  - apply IH; assumption.
Qed.
Lemma kept_incl n log x : In x (kept n log) -> In x log.
Proof. intros I. apply in_app_or in I. destruct I as [I|I]; [apply lastn_incl in I; exact I|apply filter_In in I; apply I]. Qed.
Lemma kept_snoc n log p x : (1 <= n)%nat -> NoDup (map pts (log ++ [p])) -> Forall (fun q => 0 <= pts q) (log ++ [p]) ->
  In x (kept n (log ++ [p])) <-> x = p \/ (In x (kept n log) /\ ~ (0 < leaving n log /\ pts x = leaving n log)).
Proof.
  intros N ND NN. assert (ND0: NoDup (map pts log)).
  { rewrite map_app in ND. cbn [map] in ND. apply NoDup_remove_1 in ND. rewrite app_nil_r in ND. exact ND. }
  apply Forall_app in NN. destruct NN as [NN0 _]. rewrite Forall_forall in NN0.
  unfold kept. rewrite lastn_snoc by exact N. rewrite filter_app. cbn [filter]. unfold leaving. rewrite !in_app_iff.
  destruct (Nat.leb_spec n (length log)) as [L|L].
  - destruct (lastn n log) as [|q t] eqn:EL.
    { apply (f_equal (@length publication)) in EL. rewrite lastn_length in EL. cbn in EL. lia. }
    cbn [tl In]. assert (IQ: In q log) by (apply (lastn_incl _ log n); rewrite EL; left; reflexivity).
    assert (IT: forall y, In y t -> In y log) by (intros y Y; apply (lastn_incl _ log n); rewrite EL; right; exact Y).
    assert (NQ: ~ In q t).
    { intros X. assert (NL: NoDup (lastn n log)).
      { unfold lastn. apply (NoDup_map_inv pts). rewrite <- skipn_map. clear -ND0. revert ND0. generalize (map pts log). intros l. generalize (length log - n)%nat. induction l as [|a l IH]; intros k ND0; [rewrite skipn_nil; constructor|]. destruct k; [exact ND0|]. cbn [skipn]. inversion ND0; subst. apply IH. assumption. }
      rewrite EL in NL. inversion NL; subst. contradiction. }
    pose proof (NN0 q IQ) as PQ. destruct (pts p =? 0) eqn:P0; cbn [In].
    + split.
      * intros [[I|[->|[]]]|[I|[->|[]]]]; try (left; reflexivity).
        -- right. split; [left; right; exact I|]. intros [_ E]. apply NQ. rewrite <- (pts_inj log x q ND0 (IT x I) IQ E). exact I.
        -- right. split; [right; exact I|]. apply filter_In in I. destruct I as [I Z0]. apply Z.eqb_eq in Z0. intros [G E]. lia.
      * intros [->|[[[E|I]|I] H]]; [left; right; left; reflexivity| |left; left; exact I|right; left; exact I].
        right. left. apply filter_In. rewrite <- E in *. split; [exact IQ|]. apply Z.eqb_eq. destruct (Z.eq_dec (pts q) 0); [assumption|]. exfalso. apply H. split; [lia|reflexivity].
    + split.
      * intros [[I|[->|[]]]|[I|[]]]; try (left; reflexivity).
        -- right. split; [left; right; exact I|]. intros [_ E]. apply NQ. rewrite <- (pts_inj log x q ND0 (IT x I) IQ E). exact I.
        -- right. split; [right; exact I|]. apply filter_In in I. destruct I as [I Z0]. apply Z.eqb_eq in Z0. intros [G E]. lia.
      * intros [->|[[[E|I]|I] H]]; [left; right; left; reflexivity| |left; left; exact I|right; left; exact I].
        right. left. apply filter_In. rewrite <- E in *. split; [exact IQ|]. apply Z.eqb_eq. destruct (Z.eq_dec (pts q) 0); [assumption|]. exfalso. apply H. split; [lia|reflexivity].
  - destruct (pts p =? 0); cbn [In]; split.
    + intros [[I|[->|[]]]|[I|[->|[]]]]; try (left; reflexivity); right; (split; [|lia]); [left|right]; exact I.
    + intros [->|[[I|I] _]]; [left; right; left; reflexivity|left; left; exact I|right; left; exact I].
    + intros [[I|[->|[]]]|[I|[]]]; try (left; reflexivity); right; (split; [|lia]); [left|right]; exact I.
    + intros [->|[[I|I] _]]; [left; right; left; reflexivity|left; left; exact I|right; left; exact I].
Qed.
Lemma at_some ts l p : (forall a b, In a l -> In b l -> pts a = pts b -> a = b) -> In p l -> pts p = ts -> at_ ts l = Some p.
Proof.
  intros J I E. unfold at_. destruct (find (fun q => pts q =? ts) l) as [q|] eqn:F.
  - apply find_some in F. destruct F as [F1 F2]. apply Z.eqb_eq in F2. f_equal. apply J; [assumption..|congruence].
  - exfalso. pose proof (find_none _ _ F p I) as X. cbn in X. apply Z.eqb_neq in X. contradiction.
Qed.
Lemma at_in ts l p : at_ ts l = Some p -> In p l /\ pts p = ts.
Proof. intros E. apply find_some in E. destruct E as [E1 E2]. apply Z.eqb_eq in E2. split; assumption. Qed.
Lemma at_none ts l : at_ ts l = None -> forall p, In p l -> pts p <> ts.
Proof. intros E p I X. pose proof (find_none _ _ E p I) as H. cbn in H. apply Z.eqb_neq in H. contradiction. Qed.

(** *** Slots. *)
Definition slotFor (o : option seg) : slot := match o with Some (ts, du, b) => mkSlot true ts du b | None => emptySlot end.
Definition slotMap (ids : list Z) (w : waiting) : zmap slot := map (fun id => (id, slotFor (w id))) ids.
Definition increasing (ids : list Z) : Prop := msorted (map (fun id => (id, emptySlot)) ids).
Lemma inc_sorted lo ids (f : Z -> slot) : sorted_from lo (map (fun id => (id, emptySlot)) ids) -> sorted_from lo (map (fun id => (id, f id)) ids).
Proof. revert lo. induction ids as [|i ids IH]; intros lo H; [exact Logic.I|]. cbn in *. destruct H as [H1 H2]. split; [exact H1|apply IH, H2]. Qed.
Lemma slotMap_find ids w id : mfind id (slotMap ids w) = if existsb (Z.eqb id) ids then Some (slotFor (w id)) else None.
Proof.
  induction ids as [|i ids IH]; [reflexivity|]. cbn [slotMap map mfind existsb]. fold (slotMap ids w). destruct (Z.eqb_spec id i) as [->|N]; [reflexivity|]. cbn [orb]. exact IH.
Qed.
Lemma slotMap_set ids w id x : increasing ids -> existsb (Z.eqb id) ids = true ->
  mset id (slotFor (Some x)) (slotMap ids w) = slotMap ids (fun i => if i =? id then Some x else w i).
Proof.
  intros I E. apply mext.
  - apply msorted_mset. apply inc_sorted, I.
  - apply inc_sorted, I.
  - intros k. rewrite mfind_mset, !slotMap_find. destruct (Z.eqb_spec k id) as [->|N]; [rewrite E; reflexivity|reflexivity].
Qed.
Lemma slotMap_ext ids w w' : (forall i, In i ids -> w i = w' i) -> slotMap ids w = slotMap ids w'.
Proof. intros H. apply map_ext_in. intros i I. rewrite (H i I). reflexivity. Qed.
Lemma slotMap_keys ids w : mkeys (slotMap ids w) = ids.
Proof. unfold mkeys, slotMap. rewrite map_map. apply map_id. Qed.
Lemma mem_ids ids w id : mmem id (slotMap ids w) = existsb (Z.eqb id) ids.
Proof. unfold mmem. rewrite slotMap_find. destruct (existsb (Z.eqb id) ids); reflexivity. Qed.
Lemma inc_nodup ids : increasing ids -> NoDup ids.
Proof. intros I. rewrite <- (slotMap_keys ids nothing). eapply mkeys_nodup. apply inc_sorted, I. Qed.

(** *** The state. *)
Definition tl_ (s : side) (m : manager) : list (Z * Z) := match setOf s m with Some x => timeline x | None => [] end.
Record Inv (bp bn : str) (n : nat) (ids : side -> list Z) (log : side -> list publication) (w : side -> waiting) (d : dasher) : Prop := mkInv {
  i_mgr : exists m, mgr d = Some m /\ maxSeg m = Z.of_nat n /\ (forall s, tl_ s m = line (lastn n (log s))) /\
          (forall s id x, In id (ids s) -> w s id = Some x -> setOf s m <> None) /\
          ((exists s, log s <> []) -> exists m', fget (mpdPath d) (files d) = Some (Manifest m') /\ forall s, tl_ s m' = tl_ s m);
  i_path : basePath d = bp; i_name : baseName d = bn;
  i_slots : forall s, slotsOf s d = slotMap (ids s) (w s);
  i_video : hasVideo d = match ids V with [] => false | _ => true end;
  i_files : forall s id ts, In id (ids s) -> 0 <= ts < 18446744073709551616 ->
     fget (getSegmentName bp bn id ts (ext s)) (files d) = match at_ ts (kept n (log s)) with Some p => option_map Data (dataOf id p) | None => None end
}.
Definition upd {X} (s : side) (x : X) (f : side -> X) : side -> X := fun t => match s, t with V, V | A, A => x | _, _ => f t end.
Lemma upd_eq {X} s (x : X) f : upd s x f s = x.
Proof. destruct s; reflexivity. Qed.
Lemma upd_cases {X} s (x : X) f t : (t = s /\ upd s x f t = x) \/ (t <> s /\ upd s x f t = f t).
Proof. destruct s, t; try (left; split; reflexivity); right; split; try reflexivity; discriminate. Qed.

Lemma setOf_put s t x m : setOf t (putSet s x m) = if match s, t with V, V | A, A => true | _, _ => false end then Some x else setOf t m.
Proof. destruct s, t; reflexivity. Qed.
Lemma repr_tl s id m t : tl_ t (updateRepresentation s id m) = tl_ t m.
Proof.
  unfold tl_, updateRepresentation. rewrite setOf_put. destruct s, t; try reflexivity; cbn [setOf];
  [destruct (vset m) as [x|]|destruct (audset m) as [x|]]; cbn [reprs timeline memStr existsb]; try reflexivity; destruct (memStr id (reprs x)); reflexivity.
Qed.
Lemma repr_some s id m : setOf s (updateRepresentation s id m) <> None.
Proof. unfold updateRepresentation. rewrite setOf_put. destruct s; discriminate. Qed.
Lemma repr_keep s id m t : setOf t m <> None -> setOf t (updateRepresentation s id m) <> None.
Proof. intros H. unfold updateRepresentation. rewrite setOf_put. destruct s, t; try discriminate; exact H. Qed.
Lemma repr_max s id m : maxSeg (updateRepresentation s id m) = maxSeg m.
Proof. unfold updateRepresentation. destruct s; reflexivity. Qed.

(** A stream completes a segment. *)
Lemma complete_inv bp bn n ids log w d s id x : (forall s, increasing (ids s)) -> Inv bp bn n ids log w d -> existsb (Z.eqb id) (ids s) = true ->
  Inv bp bn n ids log (upd s (fun i => if i =? id then Some x else w s i) w) (complete s id x d).
Proof.
  intros INC I E. destruct I as [(m & M1 & M2 & M3 & M4 & M5) P N SL HV F].
  assert (WC: forall t, (t = s) \/ (upd s (fun i => if i =? id then Some x else w s i) w t = w t)) by (intros t; destruct s, t; try (left; reflexivity); right; reflexivity).
  destruct x as [[ts du] b]. unfold complete, onMgr.
  replace (mgr (putSlots s (mset id (mkSlot true ts du b) (slotsOf s d)) d)) with (Some m) by (destruct s; symmetry; exact M1).
  constructor.
  - exists (updateRepresentation s (uintText (u32 id)) m). split; [reflexivity|]. split; [rewrite repr_max; exact M2|]. split; [intros t; rewrite repr_tl; apply M3|]. split.
    + intros t i y It W. destruct (WC t) as [->|Q]; [apply repr_some|].
      rewrite Q in W. apply repr_keep. apply (M4 t i y It W).
    + intros X. destruct (M5 X) as (m' & Q1 & Q2). exists m'. split; [destruct s; exact Q1|]. intros t. rewrite Q2, repr_tl. reflexivity.
  - destruct s; exact P.
  - destruct s; exact N.
  - intros t. assert (G: slotsOf s (putSlots s (mset id (mkSlot true ts du b) (slotsOf s d)) d) = slotMap (ids s) (fun i => if i =? id then Some (ts, du, b) else w s i)).
    { transitivity (mset id (mkSlot true ts du b) (slotsOf s d)); [destruct s; reflexivity|]. rewrite SL. apply (slotMap_set (ids s) (w s) id (ts, du, b) (INC s) E). }
    destruct s, t; try exact G; [exact (SL A)|exact (SL V)].
  - destruct s; exact HV.
  - intros t i k It Tk. destruct s; apply (F t i k It Tk).
Qed.

Lemma files_only bp bn n ids log w d f : Inv bp bn n ids log w d ->
  (forall s id ts, In id (ids s) -> 0 <= ts < 18446744073709551616 -> fget (getSegmentName bp bn id ts (ext s)) f = fget (getSegmentName bp bn id ts (ext s)) (files d)) ->
  fget (mpdPath d) f = fget (mpdPath d) (files d) -> Inv bp bn n ids log w (putFiles f d).
Proof.
  intros [(m & M1 & M2 & M3 & M4 & M5) P N SL HV F] H1 H2. constructor; try assumption.
  - exists m. do 4 (split; [assumption|]). intros X0. destruct (M5 X0) as (m' & Q1 & Q2). exists m'. split; [|exact Q2]. change (mpdPath (putFiles f d)) with (mpdPath d). cbn [putFiles files]. rewrite H2. exact Q1.
  - intros s id ts It Tk. cbn [putFiles files]. rewrite H1 by assumption. apply F; assumption.
Qed.

Lemma inv_ext bp bn n ids log w w' d : (forall s i, In i (ids s) -> w s i = w' s i) -> Inv bp bn n ids log w d -> Inv bp bn n ids log w' d.
Proof.
  intros E [(m & M1 & M2 & M3 & M4 & M5) P N SL HV F]. constructor; try assumption.
  - exists m. do 3 (split; [assumption|]). split; [|assumption]. intros s id x I W. apply (M4 s id x I). rewrite E; assumption.
  - intros s. rewrite SL. apply slotMap_ext. intros i I. apply E, I.
Qed.

(** What the spec gives for one frame. *)
Definition giveW (ids : side -> list Z) (gs : list given) (w : side -> waiting) : side -> waiting :=
  fun s => match s with V => give (ids V) gs (w V) | A => match ids V with [] => give (ids A) gs (w A) | _ => w A end end.
Lemma frame_inv bp bn n ids log w d g : (forall s, increasing (ids s)) -> Inv bp bn n ids log w d ->
  Inv bp bn n ids log (giveW ids [g] w) (oneFrame g d).
Proof.
  intros INC I. unfold oneFrame. pose proof (i_slots _ _ _ _ _ _ _ I V) as SV. pose proof (i_slots _ _ _ _ _ _ _ I A) as SA. cbn [slotsOf] in SV, SA. rewrite SV, SA, !mem_ids.
  assert (INIT: forall s, Inv bp bn n ids log w (match ginit g with None => d | Some b => putFiles (fput (getInitSegmentName (basePath d) (baseName d) (gid g) (ext s)) (Data b) (files d)) d end)).
  { intros s. destruct (ginit g) as [b|]; [|exact I]. apply files_only; [exact I| |].
    - intros t id ts It Tt. rewrite fget_fput. destruct (streqb_spec (getInitSegmentName (basePath d) (baseName d) (gid g) (ext s)) (getSegmentName bp bn id ts (ext t))) as [X|_]; [|reflexivity].
      exfalso. symmetry in X. revert X. apply seg_not_init. exact Tt.
    - rewrite fget_fput. destruct (streqb_spec (getInitSegmentName (basePath d) (baseName d) (gid g) (ext s)) (mpdPath d)) as [X|_]; [|reflexivity]. exfalso. revert X. apply init_not_mpd. }
  destruct (existsb (Z.eqb (gid g)) (ids V)) eqn:EV.
  - specialize (INIT V). destruct (gseg g) as [x|] eqn:GS.
    + eapply inv_ext; [|apply (complete_inv _ _ _ _ _ _ _ V (gid g) x INC INIT EV)]. intros s i It. destruct s; cbn [upd giveW].
      * unfold give. cbn [fold_left]. rewrite GS, EV. reflexivity.
      * destruct (ids V); [discriminate EV|reflexivity].
    + eapply inv_ext; [|exact INIT]. intros s i It. destruct s; cbn [giveW]; unfold give; cbn [fold_left]; rewrite ?GS; [reflexivity|destruct (ids V); reflexivity].
  - destruct (existsb (Z.eqb (gid g)) (ids A)) eqn:EA.
    + specialize (INIT A). destruct (gseg g) as [x|] eqn:GS.
      * rewrite (i_video _ _ _ _ _ _ _ INIT). destruct (ids V) as [|v vs] eqn:IV.
        -- eapply inv_ext; [|apply (complete_inv _ _ _ _ _ _ _ A (gid g) x INC INIT EA)]. intros s i It. destruct s; cbn [upd giveW].
           ++ unfold give. cbn [fold_left]. rewrite GS, IV. reflexivity.
           ++ rewrite IV. unfold give. cbn [fold_left]. rewrite GS, EA. reflexivity.
        -- eapply inv_ext; [|exact INIT]. intros s i It. destruct s; cbn [giveW].
           ++ unfold give. cbn [fold_left]. rewrite GS. rewrite IV, EV. reflexivity.
           ++ rewrite IV. reflexivity.
      * eapply inv_ext; [|exact INIT]. intros s i It. destruct s; cbn [giveW]; unfold give; cbn [fold_left]; rewrite ?GS; [reflexivity|destruct (ids V); reflexivity].
    + eapply inv_ext; [|exact I]. intros s i It. destruct s; cbn [giveW]; unfold give; cbn [fold_left]; destruct (gseg g); rewrite ?EV, ?EA; try reflexivity; destruct (ids V); reflexivity.
Qed.
Lemma frames_inv bp bn n ids log : (forall s, increasing (ids s)) -> forall gs w d, Inv bp bn n ids log w d ->
  Inv bp bn n ids log (giveW ids gs w) (fold_left (fun d g => oneFrame g d) gs d).
Proof.
  intros INC. induction gs as [|g gs IH]; intros w d I; cbn [fold_left].
  - eapply inv_ext; [|exact I]. intros s i It. destruct s; cbn [giveW give fold_left]; [reflexivity|destruct (ids V); reflexivity].
  - eapply inv_ext; [|apply IH, (frame_inv _ _ _ _ _ _ _ g INC I)]. intros s i It. destruct s; cbn [giveW].
    + reflexivity.
    + destruct (ids V); reflexivity.
Qed.

(** Forced audio. *)
Lemma force_inv bp bn n ids log forced : (forall s, increasing (ids s)) -> forall l w d, (forall i, In i l -> existsb (Z.eqb i) (ids A) = true) ->
  Inv bp bn n ids log w d -> Inv bp bn n ids log (upd A (cut l forced (w A)) w) (forceAudio l forced d).
Proof.
  intros INC. induction l as [|i l IH]; intros w d H I; cbn [forceAudio cut].
  - eapply inv_ext; [|exact I]. intros [] k K; reflexivity.
  - destruct (forced i) as [x|]; [|eapply inv_ext; [|exact I]; intros [] k K; reflexivity].
    pose proof (complete_inv _ _ _ _ _ _ _ A i x INC I (H i (or_introl eq_refl))) as I1.
    specialize (IH _ _ (fun j J => H j (or_intror J)) I1). eapply inv_ext; [|exact IH]. intros [] k K; reflexivity.
Qed.
Lemma force_path l forced : forall d, mpdPath (forceAudio l forced d) = mpdPath d.
Proof.
  induction l as [|i l IH]; intros d; [reflexivity|]. cbn [forceAudio]. destruct (forced i) as [[[ts du] b]|]; [|reflexivity]. rewrite IH. unfold complete, onMgr. cbn [putSlots slotsOf mgr].
  destruct (mgr d); reflexivity.
Qed.

(** Writing and deleting the files of a publication. *)
Lemma fold_put (nm : Z -> str) (sl : zmap slot) k : forall f,
  (~ In k (map nm (mkeys sl)) -> fget k (fold_left (fun f x => fput (nm (fst x)) (Data (sdata (snd x))) f) sl f) = fget k f).
Proof.
  induction sl as [|[i x] sl IH]; intros f N; [reflexivity|]. cbn [fold_left fst snd]. rewrite IH; [|intros X; apply N; right; exact X].
  rewrite fget_fput. destruct (streqb_spec (nm i) k) as [E|_]; [|reflexivity]. exfalso. apply N. left. exact E.
Qed.
Lemma fold_put_in (nm : Z -> str) : forall (sl : zmap slot) f i x, NoDup (map nm (mkeys sl)) -> In (i, x) sl ->
  fget (nm i) (fold_left (fun f x => fput (nm (fst x)) (Data (sdata (snd x))) f) sl f) = Some (Data (sdata x)).
Proof.
  induction sl as [|[j y] sl IH]; intros f i x N I; [destruct I|]. cbn [mkeys map fst] in N. inversion N as [|? ? N1 N2]; subst. cbn [fold_left fst snd]. destruct I as [E|I].
  - injection E as -> ->. rewrite fold_put by exact N1. rewrite fget_fput, streqb_refl. reflexivity.
  - apply IH; assumption.
Qed.
Lemma fold_del (nm : Z -> str) (sl : zmap slot) k : forall f,
  fget k (fold_left (fun f x => fdel (nm (fst x)) f) sl f) = if existsb (fun i => streqb (nm i) k) (mkeys sl) then None else fget k f.
Proof.
  induction sl as [|[i x] sl IH]; intros f; [reflexivity|]. cbn [fold_left fst mkeys map existsb]. rewrite IH, fget_fdel. fold (mkeys sl).
  destruct (streqb (nm i) k); cbn [orb]; [destruct (existsb _ _); reflexivity|reflexivity].
Qed.

Lemma data_map (w : waiting) l j : In j l ->
  find (fun x : Z * bytes => fst x =? j) (map (fun i => (i, match w i with Some (_, _, b) => b | None => [] end)) l) = Some (j, match w j with Some (_, _, b) => b | None => [] end).
Proof.
  induction l as [|k l IH]; [intros []|]. intros J. cbn [map find fst]. destruct (Z.eqb_spec k j) as [->|NE]; [reflexivity|]. destruct J as [->|J]; [congruence|]. apply IH, J.
Qed.
Lemma publish_some ids w p : publish ids w = Some p -> exists i r ts du b, ids = i :: r /\ w i = Some (ts, du, b) /\ pts p = ts /\ pdur p = du /\
  (forall j, In j ids -> w j <> None) /\ forall j, In j ids -> dataOf j p = match w j with Some (_, _, c) => Some c | None => None end.
Proof.
  unfold publish. destruct ids as [|i r]; [discriminate|]. destruct (w i) as [[[ts du] b]|] eqn:W; [|discriminate].
  destruct (forallb _ _) eqn:FA; [|discriminate]. intros E. injection E as <-. exists i, r, ts, du, b. rewrite forallb_forall in FA.
  do 4 (split; [first [reflexivity|exact W]|]). split.
  - intros j J X. specialize (FA j J). rewrite X in FA. discriminate.
  - intros j J. unfold dataOf. change (pdata _) with (map (fun i => (i, match w i with Some (_, _, b) => b | None => [] end)) (i :: r)). rewrite (data_map w (i :: r) j J).
    specialize (FA j J). destruct (w j) as [[[? ?] c]|]; [reflexivity|discriminate FA].
Qed.
Lemma publish_none ids w : publish ids w = None -> ids = [] \/ forallb (fun i => match w i with Some _ => true | None => false end) ids = false.
Proof.
  unfold publish. destruct ids as [|i r]; [left; reflexivity|]. intros H. right. destruct (w i) as [[[ts du] b]|] eqn:W; [|cbn [forallb]; rewrite W; reflexivity].
  destruct (forallb _ _); [discriminate|reflexivity].
Qed.
Lemma all_done ids w : forallb (fun y => sdone (snd y)) (slotMap ids w) = forallb (fun i => match w i with Some _ => true | None => false end) ids.
Proof. induction ids as [|i ids IH]; [reflexivity|]. cbn [slotMap map forallb snd]. fold (slotMap ids w). rewrite IH. destruct (w i) as [[[? ?] ?]|]; reflexivity. Qed.

(** The state after publishing on side [s]. *)
Lemma write_files bp bn n ids log w d s p : (1 <= n)%nat -> (forall s, increasing (ids s)) -> (forall s, Forall int32 (ids s)) ->
  Inv bp bn n ids log w d -> publish (ids s) (w s) = Some p ->
  NoDup (map pts (log s ++ [p])) -> Forall (fun q => 0 <= pts q < 18446744073709551616) (log s ++ [p]) ->
  Inv bp bn n ids (upd s (log s ++ [p]) log) (upd s nothing w)
    (let d1 := writeAll s (pts p) d in
     match mgr d1 with
     | None => d1
     | Some m => let '(rm, m) := updateAdaptationSetTimestamp s (pts p) (pdur p) m in
                 let d := writeManifest (putMgr m d1) in
                 if 0 <? rm then cleanSegments s rm d else d
     end).
Proof.
  intros N INC I32 I PB ND RG. destruct I as [(m & M1 & M2 & M3 & M4 & M5) P NM SL HV F]. cbv zeta.
  destruct (publish_some _ _ _ PB) as (i0 & r0 & ts & du & b & EI & W0 & EP & ED & AW & DA).
  replace (mgr (writeAll s (pts p) d)) with (Some m) by (destruct s; symmetry; exact M1).
  assert (NS: setOf s m <> None) by (apply (M4 s i0 (ts, du, b)); [rewrite EI; left; reflexivity|exact W0]).
  unfold updateAdaptationSetTimestamp. destruct (setOf s m) as [x|] eqn:SX; [|congruence]. clear NS. unfold updateTimestamp.
  pose proof (M3 s) as TX. unfold tl_ in TX. rewrite SX in TX. rewrite TX, M2.
  destruct (pop_log n (log s) N) as (l & EL & LL). rewrite EL. set (m1 := putSet s (mkSet (l ++ [(pts p, pdur p)]) (reprs x)) m).
  set (d1 := writeAll s (pts p) d). set (d2 := writeManifest (putMgr m1 d1)).
  assert (T1: forall t, tl_ t m1 = line (lastn n (upd s (log s ++ [p]) log t))).
  { intros t. unfold tl_, m1. rewrite setOf_put. destruct (upd_cases s (log s ++ [p]) log t) as [[-> Q]|[NE Q]]; rewrite Q.
    - destruct s; cbn [timeline]; apply LL.
    - destruct s, t; try congruence; apply (M3 _). }
  assert (MP: mpdPath (putMgr m1 d1) = mpdPath d) by (destruct s; reflexivity).
  assert (INJ: forall i j k k' t, In i (ids s) -> In j (ids t) -> 0 <= k < 18446744073709551616 -> 0 <= k' < 18446744073709551616 -> getSegmentName bp bn i k (ext s) = getSegmentName bp bn j k' (ext t) -> i = j /\ k = k' /\ t = s).
  { intros i j k k' t Ii Ij K K' E. apply segName_inj in E; try assumption. destruct E as (_ & E1 & E2 & E3). split; [|split; [exact E2|symmetry; exact E3]].
    apply u32_inj; [|  |exact E1]; [pose proof (I32 s) as X|pose proof (I32 t) as X]; rewrite Forall_forall in X; apply X; assumption. }
  assert (RP: 0 <= pts p < 18446744073709551616) by (apply Forall_app in RG; destruct RG as [_ RG]; inversion RG; assumption).
  assert (FW: forall t i k, In i (ids t) -> 0 <= k < 18446744073709551616 ->
     fget (getSegmentName bp bn i k (ext t)) (files d1) = if match s, t with V, V | A, A => true | _, _ => false end then (if k =? pts p then option_map Data (dataOf i p) else fget (getSegmentName bp bn i k (ext t)) (files d))
        else fget (getSegmentName bp bn i k (ext t)) (files d)).
  { intros t i k Ii K. unfold d1, writeAll. cbn [putFiles files]. rewrite P, NM, SL.
    set (nm := fun j => getSegmentName bp bn j (pts p) (ext s)).
    change (fun (f : disk) (x0 : Z * slot) => fput (getSegmentName bp bn (fst x0) (pts p) (ext s)) (Data (sdata (snd x0))) f) with (fun (f : disk) (x0 : Z * slot) => fput (nm (fst x0)) (Data (sdata (snd x0))) f).
    assert (NI: forall j, In j (map nm (mkeys (slotMap (ids s) (w s)))) -> j = getSegmentName bp bn i k (ext t) -> t = s /\ k = pts p).
    { intros j J E. rewrite slotMap_keys in J. apply in_map_iff in J. destruct J as (q & E2 & Iq). unfold nm in E2. rewrite E in E2. apply INJ in E2; try assumption. destruct E2 as (_ & E3 & E4). split; [exact E4|symmetry; exact E3]. }
    assert (OUT: ~ (t = s /\ k = pts p) -> fget (getSegmentName bp bn i k (ext t)) (fold_left (fun (f : disk) (x0 : Z * slot) => fput (nm (fst x0)) (Data (sdata (snd x0))) f) (slotMap (ids s) (w s)) (files d)) = fget (getSegmentName bp bn i k (ext t)) (files d)).
    { intros H. apply fold_put. intros J. apply H. apply (NI _ J eq_refl). }
    assert (SS: {t = s} + {t <> s}) by (destruct s, t; try (left; reflexivity); right; discriminate). destruct SS as [->|NE].
    - destruct (Z.eqb_spec k (pts p)) as [->|NK].
      + rewrite DA by exact Ii.
        assert (G: fget (nm i) (fold_left (fun (f : disk) (x0 : Z * slot) => fput (nm (fst x0)) (Data (sdata (snd x0))) f) (slotMap (ids s) (w s)) (files d)) = Some (Data (sdata (slotFor (w s i))))).
        { apply fold_put_in.
          - rewrite slotMap_keys. assert (NDI: NoDup (ids s)) by (apply inc_nodup, INC). assert (INJ2: forall a b, In a (ids s) -> In b (ids s) -> nm a = nm b -> a = b) by (intros a c Ia Ic E; apply INJ in E; try assumption; apply E).
            clear -NDI INJ2. revert NDI INJ2. generalize (ids s) as q. induction q as [|a q IH]; intros NDI J; [constructor|]. inversion NDI as [|? ? N1 N2]; subst. cbn [map]. constructor.
            + intros X. apply in_map_iff in X. destruct X as (c & E & Ic). apply N1. rewrite <- (J c a (or_intror Ic) (or_introl eq_refl) E). exact Ic.
            + apply IH; [exact N2|]. intros a' b' A' B'. apply J; right; assumption.
          - apply in_map_iff. exists i. split; [reflexivity|exact Ii]. }
        unfold nm in G at 1. rewrite G. specialize (AW i Ii). destruct (w s i) as [[[? ?] c]|]; [|congruence]. destruct s; reflexivity.
      + rewrite OUT by (intros [_ X]; congruence). destruct s; reflexivity.
    - rewrite OUT by (intros [X _]; congruence). destruct s, t; try reflexivity; congruence. }
  assert (FM: forall t i k, fget (getSegmentName bp bn i k (ext t)) (files d2) = fget (getSegmentName bp bn i k (ext t)) (files d1)).
  { intros t i k. unfold d2, writeManifest. cbn [mgr putMgr putFiles files]. rewrite fget_fput. destruct (streqb_spec (mpdPath (putMgr m1 d1)) (getSegmentName bp bn i k (ext t))) as [X|_]; [|reflexivity]. exfalso. symmetry in X. revert X. apply seg_not_mpd. }
  assert (FMAN: fget (mpdPath d) (files d2) = Some (Manifest m1)).
  { unfold d2, writeManifest. cbn [mgr putMgr putFiles files]. rewrite fget_fput. rewrite <- MP. rewrite streqb_refl. reflexivity. }
  (* deletion *)
  set (rm := leaving n (log s)).
  set (d3 := if 0 <? rm then cleanSegments s rm d2 else d2).
  assert (S2: forall t, slotsOf t d2 = slotMap (ids t) (upd s nothing w t)).
  { intros t. destruct (upd_cases (X:=waiting) s nothing w t) as [[-> Q]|[NE Q]]; rewrite Q.
    - transitivity (map (fun x => (fst x, clearSlot (snd x))) (slotsOf s d)); [destruct s; reflexivity|]. rewrite SL. unfold slotMap. rewrite map_map. apply map_ext. intros a. reflexivity.
    - rewrite <- SL. destruct s, t; try reflexivity; congruence. }
  assert (B2: basePath d2 = bp /\ baseName d2 = bn /\ hasVideo d2 = hasVideo d /\ mpdPath d2 = mpdPath d /\ mgr d2 = Some m1).
  { split; [destruct s; exact P|]. split; [destruct s; exact NM|]. destruct s; repeat split. }
  destruct B2 as (B21 & B22 & B23 & B24 & B25).
  assert (F3: forall k, fget k (files d3) = if (0 <? rm) && existsb (fun i => streqb (getSegmentName bp bn i rm (ext s)) k) (ids s) then None else fget k (files d2)).
  { intros k. unfold d3. destruct (0 <? rm); cbn [andb]; [|reflexivity]. unfold cleanSegments. cbn [putFiles files]. rewrite B21, B22, S2.
    pose proof (fold_del (fun i => getSegmentName bp bn i rm (ext s)) (slotMap (ids s) (upd s nothing w s)) k (files d2)) as FD. cbn beta in FD. rewrite FD, slotMap_keys. reflexivity. }
  assert (D3: mgr d3 = mgr d2 /\ basePath d3 = basePath d2 /\ baseName d3 = baseName d2 /\ hasVideo d3 = hasVideo d2 /\ mpdPath d3 = mpdPath d2 /\ forall t, slotsOf t d3 = slotsOf t d2).
  { unfold d3. destruct (0 <? rm); repeat split. }
  destruct D3 as (D31 & D32 & D33 & D34 & D35 & D36).
  assert (RMR: 0 <= rm < 18446744073709551616).
  { unfold rm, leaving. destruct (n <=? length (log s))%nat; [|lia]. destruct (lastn n (log s)) as [|q t] eqn:EQ; [lia|].
    apply Forall_app in RG. destruct RG as [RG _]. rewrite Forall_forall in RG. apply RG. apply (lastn_incl _ _ n). rewrite EQ. left. reflexivity. }
  change (Inv bp bn n ids (upd s (log s ++ [p]) log) (upd s nothing w) d3). constructor.
  - exists m1. split; [rewrite D31; exact B25|]. split; [unfold m1; destruct s; exact M2|]. split; [exact T1|]. split.
    + intros t i y It W. destruct (upd_cases (X:=waiting) s nothing w t) as [[-> Q]|[NE Q]]; rewrite Q in W; [discriminate W|]. unfold m1. rewrite setOf_put. pose proof (M4 t i y It W). destruct s, t; try congruence; assumption.
    + intros _. exists m1. split; [|reflexivity]. rewrite D35, B24, F3. destruct ((0 <? rm) && existsb _ _) eqn:X; [|exact FMAN].
      apply andb_true_iff in X. destruct X as [_ X]. apply existsb_exists in X. destruct X as (i & _ & X). destruct (streqb_spec (getSegmentName bp bn i rm (ext s)) (mpdPath d)) as [Y|_]; [|discriminate]. exfalso. revert Y. apply seg_not_mpd.
  - rewrite D32. exact B21.
  - rewrite D33. exact B22.
  - intros t. rewrite D36. apply S2.
  - rewrite D34, B23. exact HV.
  - intros t i k It K. rewrite F3, FM, FW by assumption.
    assert (SS: {t = s} + {t <> s}) by (destruct s, t; try (left; reflexivity); right; discriminate). destruct SS as [->|NE].
    2:{ destruct (upd_cases s (log s ++ [p]) log t) as [[X _]|[_ Q]]; [congruence|]. rewrite Q.
        destruct ((0 <? rm) && existsb _ _) eqn:X.
        - apply andb_true_iff in X. destruct X as [_ X]. apply existsb_exists in X. destruct X as (j & Ij & X). destruct (streqb_spec (getSegmentName bp bn j rm (ext s)) (getSegmentName bp bn i k (ext t))) as [Y|_]; [|discriminate]. apply INJ in Y; try assumption. destruct Y as (_ & _ & Y). congruence.
        - destruct s, t; try congruence; apply F; assumption. }
    rewrite upd_eq. replace (match s, s with V, V | A, A => true | _, _ => false end) with true by (destruct s; reflexivity).
    assert (NN: Forall (fun q => 0 <= pts q) (log s ++ [p])) by (eapply Forall_impl; [|exact RG]; cbn beta; intros; lia).
    assert (J': forall a c, In a (kept n (log s ++ [p])) -> In c (kept n (log s ++ [p])) -> pts a = pts c -> a = c) by (intros a c Ia Ic; apply (pts_inj (log s ++ [p])); [exact ND|apply (kept_incl n), Ia|apply (kept_incl n), Ic]).
    assert (J0: forall a c, In a (kept n (log s)) -> In c (kept n (log s)) -> pts a = pts c -> a = c).
    { intros a c Ia Ic. apply (pts_inj (log s ++ [p])); [exact ND|apply in_or_app; left; apply (kept_incl n), Ia|apply in_or_app; left; apply (kept_incl n), Ic]. }
    assert (FRESH: forall q, In q (log s) -> pts q <> pts p).
    { intros q Iq E. rewrite map_app in ND. cbn [map] in ND. apply NoDup_remove_2 in ND. rewrite app_nil_r in ND. apply ND. rewrite <- E. apply in_map, Iq. }
    assert (KS: forall x0, In x0 (kept n (log s ++ [p])) <-> x0 = p \/ (In x0 (kept n (log s)) /\ ~ (0 < rm /\ pts x0 = rm))) by (intros x0; apply kept_snoc; assumption).
    destruct ((0 <? rm) && existsb _ _) eqn:X.
    + apply andb_true_iff in X. destruct X as [X0 X]. apply Z.ltb_lt in X0. apply existsb_exists in X. destruct X as (j & Ij & X). destruct (streqb_spec (getSegmentName bp bn j rm (ext s)) (getSegmentName bp bn i k (ext s))) as [Y|_]; [|discriminate].
      apply INJ in Y; try assumption. destruct Y as (_ & Y & _). subst k. destruct (at_ rm (kept n (log s ++ [p]))) as [q|] eqn:AT; [|reflexivity]. exfalso.
      apply at_in in AT. destruct AT as [A1 A2]. apply KS in A1. destruct A1 as [->|[A1 A3]]; [|apply A3; split; assumption].
      unfold rm, leaving in A2, X0. destruct (n <=? length (log s))%nat; [|lia]. destruct (lastn n (log s)) as [|q0 t0] eqn:EQ; [lia|]. apply (FRESH q0); [apply (lastn_incl _ _ n); rewrite EQ; left; reflexivity|]. congruence.
    + assert (NRM: ~ (0 < rm /\ k = rm)).
      { intros [G E]. subst k. apply andb_false_iff in X. destruct X as [X|X]; [apply Z.ltb_ge in X; lia|]. assert (Y: existsb (fun i1 => streqb (getSegmentName bp bn i1 rm (ext s)) (getSegmentName bp bn i rm (ext s))) (ids s) = true) by (apply existsb_exists; exists i; split; [exact It|apply streqb_refl]). congruence. }
      destruct (Z.eqb_spec k (pts p)) as [->|NK].
      * rewrite (at_some (pts p) _ p J'); [reflexivity|apply KS; left; reflexivity|reflexivity].
      * rewrite F by assumption. destruct (at_ k (kept n (log s))) as [q|] eqn:AT.
        -- apply at_in in AT. destruct AT as [A1 A2]. rewrite (at_some k _ q J'); [reflexivity| |exact A2]. apply KS. right. split; [exact A1|]. rewrite A2. exact NRM.
        -- destruct (at_ k (kept n (log s ++ [p]))) as [q|] eqn:AT2; [|reflexivity]. exfalso. apply at_in in AT2. destruct AT2 as [A1 A2]. apply KS in A1. destruct A1 as [->|[A1 _]]; [congruence|]. apply (at_none _ _ AT q A1 A2).
Qed.

(** *** Rounds. *)
Lemma cut_other l forced : forall w i, ~ In i l -> cut l forced w i = w i.
Proof.
  induction l as [|j l IH]; intros w i N; [reflexivity|]. cbn [cut]. destruct (forced j) as [x|]; [|reflexivity]. rewrite IH by (intros X; apply N; right; exact X).
  destruct (Z.eqb_spec i j) as [->|_]; [exfalso; apply N; left; reflexivity|reflexivity].
Qed.
Definition cond (log : list publication) : Prop := NoDup (map pts log) /\ Forall (fun q => 0 <= pts q < 18446744073709551616) log.
Lemma cond_prefix a b : cond (a ++ b) -> cond a.
Proof.
  intros [H1 H2]. split; [|apply Forall_app in H2; apply H2]. rewrite map_app in H1. clear H2. induction (map pts a) as [|x l IH]; [constructor|]. cbn [app] in H1. inversion H1 as [|? ? N1 N2]; subst.
  constructor; [intros X; apply N1; apply in_or_app; left; exact X|apply IH, N2].
Qed.
Lemma side_none bp bn n ids log w d s forced : Inv bp bn n ids log w d -> publish (ids s) (w s) = None -> writeSide s forced d = d.
Proof.
  intros I PB. unfold writeSide. rewrite (i_slots _ _ _ _ _ _ _ I s). apply publish_none in PB. destruct PB as [E|E]; [rewrite E; reflexivity|].
  destruct (slotMap (ids s) (w s)) as [|[i x] r] eqn:SM; [reflexivity|]. rewrite <- SM, all_done, E. reflexivity.
Qed.
Lemma side_some bp bn n ids log w d s forced p : (1 <= n)%nat -> (forall s, increasing (ids s)) -> (forall s, Forall int32 (ids s)) ->
  Inv bp bn n ids log w d -> publish (ids s) (w s) = Some p -> cond (log s ++ [p]) ->
  Inv bp bn n ids (upd s (log s ++ [p]) log) (upd s nothing (match s with V => upd A (cut (ids A) forced (w A)) w | A => w end)) (writeSide s forced d).
Proof.
  intros N INC I32 I PB [ND RG]. destruct (publish_some _ _ _ PB) as (i0 & r0 & ts & du & b & EI & W0 & EP & ED & AW & DA).
  unfold writeSide. rewrite (i_slots _ _ _ _ _ _ _ I s) at 1. rewrite EI at 1. cbn [slotMap map]. rewrite (i_slots _ _ _ _ _ _ _ I s), all_done.
  replace (forallb (fun i => match w s i with Some _ => true | None => false end) (ids s)) with true.
  2:{ symmetry. apply forallb_forall. intros j J. specialize (AW j J). destruct (w s j); [reflexivity|congruence]. }
  cbn [negb]. rewrite W0. cbn [slotFor sts sdur].
  set (w1 := match s with V => upd A (cut (ids A) forced (w A)) w | A => w end).
  assert (I1: Inv bp bn n ids log w1 (match s with V => forceAudio (mkeys (aslots d)) forced d | A => d end)).
  { destruct s; [|exact I]. pose proof (i_slots _ _ _ _ _ _ _ I A) as SA. cbn [slotsOf] in SA. rewrite SA, slotMap_keys. apply force_inv; [exact INC| |exact I].
    intros i Ii. apply existsb_exists. exists i. split; [exact Ii|apply Z.eqb_refl]. }
  assert (PB1: publish (ids s) (w1 s) = Some p) by (destruct s; exact PB).
  pose proof (write_files bp bn n ids log w1 _ s p N INC I32 I1 PB1 ND RG) as R. cbv zeta in R. rewrite EP, ED in R. exact R.
Qed.

Definition mkSides {X} (v a : X) : side -> X := fun s => match s with V => v | A => a end.
Lemma rounds_inv bp bn n ids : (1 <= n)%nat -> (forall s, increasing (ids s)) -> (forall s, Forall int32 (ids s)) ->
  forall rs log w d lv la, Inv bp bn n ids log w d -> publications (ids V) (ids A) rs (w V) (w A) = (lv, la) ->
  cond (log V ++ lv) -> cond (log A ++ la) ->
  exists w', Inv bp bn n ids (mkSides (log V ++ lv) (log A ++ la)) w' (fold_left (fun d r => round (fst r) (snd r) d) rs d).
Proof.
  intros N INC I32. induction rs as [|[gs forced] rs IH]; intros log w d lv la I E CV CA.
  - cbn [publications] in E. injection E as <- <-. exists w. rewrite !app_nil_r. cbn [fold_left]. destruct I as [(m & M1 & M2 & M3 & M4 & M5) P NM SL HV F].
    constructor; try assumption.
    + exists m. do 2 (split; [assumption|]). split; [intros []; apply M3|]. split; [assumption|]. intros [s X]. apply M5. exists s. destruct s; exact X.
    + intros s id ts Ii T. destruct s; apply F; assumption.
  - cbn [publications] in E. cbn [fold_left fst snd].
    set (wv := give (ids V) gs (w V)) in *. set (wa := match ids V with [] => give (ids A) gs (w A) | _ => w A end) in *.
    pose proof (frames_inv bp bn n ids log INC gs w d I) as I1. set (d1 := fold_left (fun d g => oneFrame g d) gs d) in *.
    assert (GV: giveW ids gs w V = wv) by reflexivity. assert (GA: giveW ids gs w A = wa) by reflexivity.
    assert (ER: round gs forced d = writeSide A forced (writeSide V forced d1)) by (unfold round; destruct (i_mgr _ _ _ _ _ _ _ I) as (m & M1 & _); rewrite M1; reflexivity).
    rewrite ER.
    assert (STEP1: exists log1 w1, Inv bp bn n ids log1 w1 (writeSide V forced d1) /\ log1 V = log V ++ (match publish (ids V) wv with Some p => [p] | None => [] end) /\ log1 A = log A /\
        w1 V = (match publish (ids V) wv with Some _ => nothing | None => wv end) /\ w1 A = (match publish (ids V) wv with Some _ => cut (ids A) forced wa | None => wa end)).
    { destruct (publish (ids V) wv) as [p|] eqn:PB.
      - destruct (publications (ids V) (ids A) rs nothing _) as [lv' la'] in E. injection E as E1 E2. assert (C1: cond (log V ++ [p])).
        { rewrite <- E1 in CV. change (p :: lv') with ([p] ++ lv') in CV. rewrite app_assoc in CV. apply cond_prefix in CV. exact CV. }
        rewrite <- GV in PB. pose proof (side_some bp bn n ids log _ d1 V forced p N INC I32 I1 PB C1) as I2. eexists _, _. split; [exact I2|]. repeat split.
      - exists log, (giveW ids gs w). rewrite (side_none _ _ _ _ _ _ _ V forced I1 PB). rewrite app_nil_r. split; [exact I1|]. repeat split. }
    destruct STEP1 as (log1 & w1 & I2 & L1V & L1A & W1V & W1A).
    rewrite <- W1V in E. rewrite <- W1A in E. fold d1 in I2.
    assert (STEP2: exists log2 w2, Inv bp bn n ids log2 w2 (writeSide A forced (writeSide V forced d1)) /\ log2 V = log1 V /\ log2 A = log1 A ++ (match publish (ids A) (w1 A) with Some p => [p] | None => [] end) /\
        w2 V = w1 V /\ w2 A = (match publish (ids A) (w1 A) with Some _ => nothing | None => w1 A end)).
    { destruct (publish (ids A) (w1 A)) as [p|] eqn:PB.
      - destruct (publications (ids V) (ids A) rs (w1 V) nothing) as [lv' la'] in E. injection E as E1 E2. assert (C1: cond (log1 A ++ [p])).
        { rewrite L1A. rewrite <- E2 in CA. change (p :: la') with ([p] ++ la') in CA. rewrite app_assoc in CA. apply cond_prefix in CA. exact CA. }
        pose proof (side_some bp bn n ids log1 _ _ A forced p N INC I32 I2 PB C1) as I3. eexists _, _. split; [exact I3|]. repeat split.
      - exists log1, w1. rewrite (side_none _ _ _ _ _ _ _ A forced I2 PB). rewrite app_nil_r. split; [exact I2|]. repeat split. }
    destruct STEP2 as (log2 & w2 & I3 & L2V & L2A & W2V & W2A). rewrite <- W2V, <- W2A in E.
    destruct (publications (ids V) (ids A) rs (w2 V) (w2 A)) as [lv' la'] eqn:EP. injection E as E1 E2.
    assert (QV: log V ++ lv = log2 V ++ lv') by (rewrite L2V, L1V, <- E1, <- app_assoc; destruct (publish (ids V) wv); reflexivity).
    assert (QA: log A ++ la = log2 A ++ la') by (rewrite L2A, L1A, <- E2, <- app_assoc; destruct (publish (ids A) (w1 A)); reflexivity).
    rewrite QV in CV |- *. rewrite QA in CA |- *. apply (IH log2 w2 _ lv' la' I3 EP CV CA).
Qed.

(** *** Setting up: everything except rounds. *)
Definition quiet (o : op) : Prop := match o with ORound _ _ => False | _ => True end.
Record Setup (d : dasher) : Prop := mkSetup {
  q_sorted : forall s, msorted (slotsOf s d);
  q_empty : forall s id x, In (id, x) (slotsOf s d) -> x = emptySlot;
  q_mgr : forall m, mgr d = Some m -> 2 <= maxSeg m /\ forall s, setOf s m = None;
  q_video : hasVideo d = match vslots d with [] => false | _ => true end;
  q_files : forall k c, fget k (files d) = Some c -> exists y, k = y ++ lit ".mpd"
}.
Lemma setup_new j : Setup (newDasher j).
Proof. constructor; [intros []; exact Logic.I|intros [] ? ? I; destruct I|discriminate|reflexivity|discriminate]. Qed.
Lemma mset_in (m : zmap slot) k v x i : In (i, x) (mset k v m) -> (i = k /\ x = v) \/ In (i, x) m.
Proof.
  induction m as [|[j y] m IH]; cbn [mset]; [intros [E|[]]; injection E as <- <-; left; split; reflexivity|].
  destruct (k =? j)%Z; [intros [E|I]; [injection E as <- <-; left; split; reflexivity|right; right; exact I]|].
  destruct (k <? j)%Z; [intros [E|I]; [injection E as <- <-; left; split; reflexivity|right; exact I]|].
  intros [E|I]; [right; left; exact E|]. destruct (IH I) as [Q|Q]; [left; exact Q|right; right; exact Q].
Qed.
Lemma mdel_in (m : zmap slot) k i x : In (i, x) (mdel k m) -> In (i, x) m.
Proof.
  induction m as [|[j y] m IH]; [intros []|]. cbn [mdel]. destruct (k =? j)%Z; [intros I; right; exact I|]. intros [E|I]; [left; exact E|right; apply IH, I].
Qed.
Lemma mset_nonempty (m : zmap slot) k v : mset k v m <> [].
Proof. destruct m as [|[j y] m]; cbn [mset]; [discriminate|]. destruct (k =? j)%Z; [discriminate|]. destruct (k <? j)%Z; discriminate. Qed.
Lemma remove_none s id m : (forall t, setOf t m = None) -> removeRepresentation s id m = m.
Proof. intros H. unfold removeRepresentation. rewrite H. reflexivity. Qed.
Lemma configureM_ok mb ms du m : 2 <= maxSeg (configureM mb ms du m) /\ forall s, setOf s (configureM mb ms du m) = setOf s m.
Proof.
  unfold configureM. cbv zeta. cbn [maxSeg]. split; [|intros []; reflexivity]. unfold MIN_SEGMENT. destruct (Z.leb_spec 2 ms); lia.
Qed.
Lemma drop_setup s id d : Setup d -> forall d', d' = (if mmem id (slotsOf s d) then onMgr (removeRepresentation s (intText id)) (putSlots s (mdel id (slotsOf s d)) d) else d) ->
  (forall t, msorted (slotsOf t d')) /\ (forall t i x, In (i, x) (slotsOf t d') -> x = emptySlot) /\ mgr d' = mgr d /\ files d' = files d /\ mpdPath d' = mpdPath d /\
  hasVideo d' = hasVideo d /\ (s = A -> vslots d' = vslots d).
Proof.
  intros Q d' ->. destruct (mmem id (slotsOf s d)) eqn:MM.
  2:{ repeat split; [apply (q_sorted _ Q)|apply (q_empty _ Q)]. }
  assert (E: onMgr (removeRepresentation s (intText id)) (putSlots s (mdel id (slotsOf s d)) d) = putSlots s (mdel id (slotsOf s d)) d).
  { unfold onMgr. destruct (mgr (putSlots s (mdel id (slotsOf s d)) d)) as [m|] eqn:EM; [|reflexivity].
    assert (EM': mgr d = Some m) by (destruct s; exact EM). rewrite remove_none by (apply (q_mgr _ Q m EM')). destruct s; unfold putMgr, putSlots; cbn in EM |- *; rewrite EM; reflexivity. }
  rewrite E. split; [intros t; destruct s, t; cbn [slotsOf putSlots vslots aslots]; first [apply msorted_mdel; first [apply (q_sorted _ Q V)|apply (q_sorted _ Q A)]|apply (q_sorted _ Q V)|apply (q_sorted _ Q A)]|].
  split; [intros t i x I; destruct s, t; cbn [slotsOf putSlots vslots aslots] in I; try apply mdel_in in I; first [apply (q_empty _ Q V i x I)|apply (q_empty _ Q A i x I)]|].
  destruct s; repeat split; discriminate.
Qed.
Lemma setup_step o d : quiet o -> Setup d -> Setup (step o d).
Proof.
  intros QO Q. destruct o as [folder base dur ms mb wr|s id|id|gs f]; [| | |destruct QO]; cbn [step].
  - unfold configure. destruct wr; [|exact Q]. cbn [negb]. destruct base as [|c base]; [exact Q|]. destruct (dur =? 0); [exact Q|]. destruct Q as [Q1 Q2 Q3 Q4 Q5]. constructor; try assumption.
    intros m E. cbn [snd mgr] in E. injection E as <-. destruct (configureM_ok mb ms dur (match mgr d with None => newManager | Some m => m end)) as [C1 C2]. split; [exact C1|]. intros s. rewrite C2.
    destruct (mgr d) as [m|] eqn:EM; [apply (Q3 m eq_refl)|destruct s; reflexivity].
  - unfold addReader. destruct (mgr d) as [m|] eqn:EM; [|exact Q]. destruct (mmem id (vslots d) || mmem id (aslots d)); [exact Q|]. cbn [snd]. destruct Q as [Q1 Q2 Q3 Q4 Q5]. destruct s.
    + constructor.
      * intros []; [apply msorted_mset, (Q1 V)|apply (Q1 A)].
      * intros [] i x I; cbn in I; [apply mset_in in I; destruct I as [[_ ->]|I]; [reflexivity|apply (Q2 V i x I)]|apply (Q2 A i x I)].
      * exact Q3.
      * cbn. pose proof (mset_nonempty (vslots d) id emptySlot). destruct (mset id emptySlot (vslots d)); [congruence|reflexivity].
      * exact Q5.
    + constructor.
      * intros []; [apply (Q1 V)|apply msorted_mset, (Q1 A)].
      * intros [] i x I; cbn in I; [apply (Q2 V i x I)|apply mset_in in I; destruct I as [[_ ->]|I]; [reflexivity|apply (Q2 A i x I)]].
      * exact Q3.
      * exact Q4.
      * exact Q5.
  - unfold deleteReader. destruct (negb (mmem id (vslots d) || mmem id (aslots d))); [exact Q|]. cbv zeta. cbn [snd].
    set (dV := if mmem id (slotsOf V d) then onMgr (removeRepresentation V (intText id)) (putSlots V (mdel id (slotsOf V d)) d) else d).
    destruct (drop_setup V id d Q dV eq_refl) as (A1 & A2 & A3 & A4 & A5 & A6 & _).
    assert (QV: Setup (mkD (mgr dV) (basePath dV) (baseName dV) (segDur dV) (vslots dV) (aslots dV) (match vslots dV with [] => false | _ => true end) (files dV))).
    { constructor; [intros []; [apply (A1 V)|apply (A1 A)]|intros [] i x I; [apply (A2 V i x I)|apply (A2 A i x I)]|cbn [mgr]; rewrite A3; apply (q_mgr _ Q)|reflexivity|cbn [files]; rewrite A4; apply (q_files _ Q)]. }
    set (dA := if mmem id (slotsOf A dV) then onMgr (removeRepresentation A (intText id)) (putSlots A (mdel id (slotsOf A dV)) dV) else dV).
    assert (DA: (forall t, msorted (slotsOf t dA)) /\ (forall t i x, In (i, x) (slotsOf t dA) -> x = emptySlot) /\ mgr dA = mgr dV /\ files dA = files dV /\ vslots dA = vslots dV /\ hasVideo dA = hasVideo dV).
    { unfold dA. destruct (mmem id (slotsOf A dV)); [|repeat split; assumption].
      assert (E: onMgr (removeRepresentation A (intText id)) (putSlots A (mdel id (slotsOf A dV)) dV) = putSlots A (mdel id (slotsOf A dV)) dV).
      { unfold onMgr. destruct (mgr (putSlots A (mdel id (slotsOf A dV)) dV)) as [m|] eqn:EM; [|reflexivity]. cbn in EM. rewrite remove_none.
        - unfold putMgr, putSlots; cbn. rewrite EM. reflexivity.
        - apply (q_mgr _ Q m). rewrite <- A3. exact EM. }
      rewrite E. split; [intros []; cbn; [apply (A1 V)|apply msorted_mdel, (A1 A)]|]. split; [intros [] i x I; cbn in I; [apply (A2 V i x I)|apply mdel_in in I; apply (A2 A i x I)]|]. repeat split. }
    destruct DA as (B1 & B2 & B3 & B4 & B5 & B6).
    assert (HVD: (match vslots dA with [] => false | _ => hasVideo dA end) = match vslots dA with [] => false | _ => true end).
    { destruct (vslots dA) as [|z r] eqn:EV; [reflexivity|]. rewrite B6, A6, (q_video _ Q). destruct (vslots d) as [|z' r'] eqn:EV'; [|reflexivity]. exfalso.
      unfold dV in B5. cbn [slotsOf] in B5. rewrite EV' in B5. unfold mmem in B5. cbn [mfind] in B5. rewrite EV' in B5. discriminate B5. }
    unfold writeManifest. cbn [mgr]. destruct (mgr dA) as [m|] eqn:EM.
    + constructor; cbn [putFiles slotsOf mgr hasVideo vslots aslots files].
      * intros []; [apply (B1 V)|apply (B1 A)].
      * intros [] i x I; [apply (B2 V i x I)|apply (B2 A i x I)].
      * intros m' E. apply (q_mgr _ Q m'). congruence.
      * exact HVD.
      * intros k c. rewrite fget_fput. destruct (streqb_spec (mpdPath (mkD (Some m) (basePath dA) (baseName dA) (segDur dA) (vslots dA) (aslots dA) (match vslots dA with [] => false | _ => hasVideo dA end) (files dA))) k) as [<-|_].
        -- intros _. exists (basePath dA ++ baseName dA). unfold mpdPath. cbn [basePath baseName]. rewrite app_assoc. reflexivity.
        -- rewrite B4, A4. apply (q_files _ Q).
    + constructor; cbn [slotsOf mgr hasVideo vslots aslots files].
      * intros []; [apply (B1 V)|apply (B1 A)].
      * intros [] i x I; [apply (B2 V i x I)|apply (B2 A i x I)].
      * discriminate.
      * exact HVD.
      * rewrite B4, A4. apply (q_files _ Q).
Qed.
Lemma setup_run ops : Forall quiet ops -> forall d, Setup d -> Setup (run ops d).
Proof.
  induction ops as [|o ops IH]; intros F d Q; [exact Q|]. inversion F as [|? ? F0 F1]; subst. cbn [run fold_left]. apply (IH F1), setup_step; assumption.
Qed.

Lemma setup_inv d m : Setup d -> mgr d = Some m ->
  Inv (basePath d) (baseName d) (Z.to_nat (maxSeg m)) (fun s => mkeys (slotsOf s d)) (fun _ => []) (fun _ => nothing) d.
Proof.
  intros Q E. destruct (q_mgr _ Q m E) as [M1 M2]. constructor; try reflexivity.
  - exists m. split; [exact E|]. split; [lia|]. split; [intros s; unfold tl_; rewrite M2; reflexivity|]. split; [discriminate|]. intros [s X]. congruence.
  - intros s. unfold slotMap, mkeys. rewrite map_map. symmetry. transitivity (map (fun x => x) (slotsOf s d)); [|apply map_id]. apply map_ext_in. intros [i x] I. cbn [fst nothing slotFor].
    rewrite (q_empty _ Q s i x I). reflexivity.
  - rewrite (q_video _ Q). cbn [slotsOf]. destruct (vslots d); reflexivity.
  - intros s id ts _ _. cbn [kept lastn filter length skipn app at_ find]. destruct (fget _ (files d)) as [c|] eqn:G; [|reflexivity]. exfalso. destruct (q_files _ Q _ _ G) as [y Y].
    rewrite segName_shape in Y. revert Y. apply not_mpd.
Qed.
Lemma keys_inc d s : msorted (slotsOf s d) -> increasing (mkeys (slotsOf s d)).
Proof.
  unfold increasing, msorted, mkeys. generalize (@None Z). induction (slotsOf s d) as [|[i x] l IH]; intros lo H; [exact Logic.I|]. cbn in *. destruct H as [H1 H2]. split; [exact H1|apply IH, H2].
Qed.
