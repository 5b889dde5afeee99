(** Proofs about the demuxer. *)
From Verif Require Import Base Bytes DmxModel DmxSpec.
Local Open Scope list_scope.
Local Open Scope Z_scope.

Lemma find_first : forall k b o q, (o <= q < o + k)%nat -> (forall j, (o <= j < q)%nat -> startAt b j = false) -> startAt b q = true -> findFrom k b o = Some q.
Proof.
  induction k as [|k IH]; intros b o q R N S; [lia|]. cbn [findFrom]. destruct (Nat.eq_dec o q) as [->|D]; [rewrite S; reflexivity|]. rewrite (N o) by lia. apply IH; [lia| |exact S]. intros j J. apply N. lia.
Qed.
Lemma find_none : forall k b o, (forall j, (o <= j < o + k)%nat -> startAt b j = false) -> findFrom k b o = None.
Proof. induction k as [|k IH]; intros b o N; [reflexivity|]. cbn [findFrom]. rewrite (N o) by lia. apply IH. intros j J. apply N. lia. Qed.
Lemma find_some : forall k b o q, findFrom k b o = Some q -> (o <= q < o + k)%nat /\ startAt b q = true.
Proof. induction k as [|k IH]; intros b o q H; [discriminate|]. cbn [findFrom] in H. destruct (startAt b o) eqn:S; [injection H as <-; split; [lia|exact S]|]. apply IH in H. split; [lia|apply H]. Qed.
Lemma nth_shift (pre X : bytes) i : nth (length pre + i) (pre ++ X) 0 = nth i X 0.
Proof. rewrite app_nth2 by lia. f_equal. lia. Qed.
Lemma start_shift (pre X : bytes) i : startAt (pre ++ X) (length pre + i) = startAt X i.
Proof. unfold startAt. rewrite <- !Nat.add_assoc, !nth_shift. reflexivity. Qed.
Lemma infix_at : forall (n : bytes) i, (i + 2 < length n)%nat -> n = firstn i n ++ [nth i n 0; nth (i + 1) n 0; nth (i + 2) n 0] ++ skipn (i + 3) n.
Proof.
  induction n as [|x n IH]; intros i H; [cbn in H; lia|]. destruct i as [|i].
  - destruct n as [|y [|z n]]; cbn in H; try lia. reflexivity.
  - cbn [firstn app nth skipn Nat.add]. f_equal. apply IH. cbn in H. lia.
Qed.
Lemma last_nth (n : bytes) : n <> [] -> last n 0 = nth (length n - 1) n 0.
Proof.
  induction n as [|x n IH]; intros H; [congruence|]. destruct n as [|y n]; [reflexivity|]. change (last (x :: y :: n) 0) with (last (y :: n) 0). rewrite IH by discriminate. cbn [length]. replace (S (S (length n)) - 1)%nat with (S (S (length n) - 1)) by lia. reflexivity.
Qed.
Lemma nal_nostart n T i : nal n -> (i < length n)%nat -> startAt (n ++ T) i = false.
Proof.
  intros (N & I & L) H. rewrite last_nth in L by exact N. unfold startAt.
  destruct (Z.eqb_spec (nth i (n ++ T) 0) 0) as [E0|]; [|reflexivity]. destruct (Z.eqb_spec (nth (i + 1) (n ++ T) 0) 0) as [E1|]; [|reflexivity]. cbn [andb].
  assert (C : forall j, (j + 2 < length n)%nat -> nth j n 0 = 0 -> nth (j + 1) n 0 = 0 -> nth (j + 2) n 0 = 1 -> False).
  { intros j J A B D. pose proof (infix_at n j J) as F. rewrite A, B, D in F. exact (I _ _ F). }
  rewrite app_nth1 in E0 by lia. destruct (Nat.eq_dec i (length n - 1)) as [Q|Q]; [rewrite <- Q in L; congruence|].
  rewrite app_nth1 in E1 by lia. destruct (Nat.eq_dec (i + 1) (length n - 1)) as [Q1|Q1]; [rewrite <- Q1 in L; congruence|].
  destruct (Z.eqb_spec (nth (i + 2) (n ++ T) 0) 1) as [E2|_].
  - rewrite app_nth1 in E2 by lia. exfalso. apply (C i); [lia|assumption..].
  - cbn [orb]. destruct (Z.eqb_spec (nth (i + 2) (n ++ T) 0) 0) as [E2|_]; [|reflexivity]. cbn [andb]. rewrite app_nth1 in E2 by lia.
    destruct (Nat.eq_dec (i + 2) (length n - 1)) as [Q2|Q2]; [rewrite <- Q2 in L; congruence|].
    destruct (Z.eqb_spec (nth (i + 3) (n ++ T) 0) 1) as [E3|_]; [|reflexivity]. rewrite app_nth1 in E3 by lia. exfalso. apply (C (i + 1)%nat); [lia|assumption| |].
    + replace (i + 1 + 1)%nat with (i + 2)%nat by lia. exact E2.
    + replace (i + 1 + 2)%nat with (i + 3)%nat by lia. exact E3.
Qed.
Lemma code_start u X : (1 <= length X)%nat -> startAt (code u ++ X) 0 = true.
Proof. intros _. unfold code. destruct (short u); reflexivity. Qed.
Lemma annexB_cons u us : annexB (u :: us) = code u ++ body u ++ annexB us.
Proof. unfold annexB. cbn [map concat]. rewrite <- app_assoc. reflexivity. Qed.
Lemma split_step pre u rest cap : nal (body u) -> len (if len (annexB rest) <? 8 then framed u ++ annexB rest else framed u) <= cap ->
  split cap (pre ++ annexB (u :: rest)) (length pre) =
    if len (annexB rest) <? 8 then Some (framed u ++ annexB rest, None) else Some (framed u, Some (length (pre ++ code u ++ body u))).
Proof.
  intros N CAP. pose proof N as (NE & _ & _). assert (NL : (1 <= length (body u))%nat) by (destruct (body u); [congruence|cbn; lia]). rewrite annexB_cons.
  set (T := annexB rest) in *. set (buf := pre ++ code u ++ body u ++ T). set (c := length (code u)). assert (HC : (c = 3 \/ c = 4)%nat) by (unfold c, code; destruct (short u); [left|right]; reflexivity).
  assert (BL : length buf = (length pre + (c + (length (body u) + length T)))%nat) by (unfold buf, c; rewrite !app_length; reflexivity).
  unfold split.
  assert (ST : findStartCode buf (length pre) (length buf) = Some (length pre)).
  { unfold findStartCode. apply find_first; [lia|intros; lia|]. unfold buf. rewrite <- (Nat.add_0_r (length pre)), start_shift. apply code_start. rewrite app_length. lia. }
  rewrite ST.
  assert (NOS : forall j, (length pre + 4 <= j < length pre + c + length (body u))%nat -> startAt buf j = false).
  { intros j J. replace j with (length (pre ++ code u) + (j - length pre - c))%nat by (rewrite app_length; fold c; lia). unfold buf. rewrite (app_assoc pre (code u)), start_shift. apply nal_nostart; [exact N|lia]. }
  assert (SH : (nth (length pre + 2) buf 0 =? 1) = short u) by (unfold buf; rewrite nth_shift; unfold code; destruct (short u); reflexivity).
  assert (PC : forall k, (if nth (length pre + 2) buf 0 =? 1 then 0 :: sub (length pre) (c + k) buf else sub (length pre) (c + k) buf) = [0; 0; 0; 1] ++ firstn k (body u ++ T)).
  { intros k. rewrite SH. unfold sub, buf. rewrite skipn_app_len by reflexivity. rewrite firstn_app. fold c. rewrite firstn_all2 by (fold c; lia). replace (c + k - c)%nat with k by lia. unfold code. destruct (short u); reflexivity. }
  unfold len in *. destruct (Z.ltb_spec (Z.of_nat (length T)) 8) as [LT|GE].
  - assert (EN : findStartCode buf (length pre + 4) (length buf - 4) = None). { unfold findStartCode. apply find_none. intros j J. apply NOS. lia. }
    rewrite EN. cbv zeta. replace (length buf - length pre)%nat with (c + (length (body u) + length T))%nat by lia. rewrite PC. rewrite firstn_all2 by (rewrite app_length; lia).
    unfold framed in *. rewrite <- app_assoc in CAP. destruct (Z.leb_spec (Z.of_nat (length ([0; 0; 0; 1] ++ body u ++ T))) cap); [rewrite <- app_assoc; reflexivity|lia].
  - assert (EN : findStartCode buf (length pre + 4) (length buf - 4) = Some (length (pre ++ code u ++ body u))).
    { unfold findStartCode. apply find_first.
      - rewrite !app_length. fold c. lia.
      - intros j J. apply NOS. rewrite !app_length in J. fold c in J. lia.
      - unfold buf. replace (pre ++ code u ++ body u ++ T) with ((pre ++ code u ++ body u) ++ T) by (rewrite <- !app_assoc; reflexivity). rewrite <- (Nat.add_0_r (length (pre ++ code u ++ body u))), start_shift.
        unfold T in *. destruct rest as [|v rest]; [cbn in GE; lia|]. rewrite annexB_cons in *. apply code_start. rewrite !app_length in GE. unfold code in GE. destruct (short v); cbn [length] in GE; rewrite app_length; lia. }
    rewrite EN. cbv zeta. rewrite !app_length at 1. fold c. replace (length pre + (c + length (body u)) - length pre)%nat with (c + length (body u))%nat by lia.
    replace (length (pre ++ code u ++ body u) - length pre)%nat with (c + length (body u))%nat by (rewrite !app_length; fold c; lia).
    rewrite PC. rewrite firstn_app_len by reflexivity. unfold framed in *. destruct (Z.leb_spec (Z.of_nat (length ([0; 0; 0; 1] ++ body u))) cap); [reflexivity|lia].
Qed.

Section Stream.
Variable toUs : Z -> Z -> Z.
Variable startTime : Z.
Variable cap : Z -> Z.
Variable connected : Z -> bool.
Notation doProcess := (doProcess toUs startTime cap connected).
Notation calls := (calls toUs startTime cap connected).
Notation outAll := (outAll toUs startTime connected pieces (fun _ t => t)).
Definition infosOf (known : Z -> option psinfo) (last : Z -> Z) : Z -> option psinfo := fun s => match known s with Some i => Some (mkPsi (needsFraming i) (isAnnexB i) (last s)) | None => None end.
Definition fitsAll (known : Z -> option psinfo) (x : packet * list unit_) : Prop :=
  forall i, known (kStream (fst x)) = Some i -> if needsFraming i then Forall (fun b => len b <= cap (kStream (fst x))) (pieces (snd x)) else len (kData (fst x)) <= cap (kStream (fst x)).
(** The frames still to come and the number of calls that takes at most. *)
Inductive rel (known : Z -> option psinfo) : demux -> list dframe -> nat -> Prop :=
| rel_free m last l n : (forall s, m s = infosOf known last s) -> Forall (wfPacket known) l -> Forall (fitsAll known) l -> n = fold_right (fun x a => 1 + length (snd x) + a)%nat 0%nat l ->
    rel known (mkDx m None (map fst l)) (outAll known last l) n
| rel_hand m last l n p pre us i : (forall s, m s = infosOf known last s) -> Forall (wfPacket known) l -> Forall (fitsAll known) l -> known (kStream p) = Some i -> needsFraming i = true -> connected (kStream p) = true ->
    us <> [] -> Forall (fun u => nal (body u)) us -> Forall (fun b => len b <= cap (kStream p)) (pieces us) -> n = (length us + fold_right (fun x a => 1 + length (snd x) + a) 0 l)%nat ->
    rel known (mkDx m (Some (p, pre ++ annexB us, length pre)) (map fst l))
      (map (mkD (kStream p) (match kPts p with Some t => toUs (kStream p) t + startTime | None => last (kStream p) + startTime end)) (pieces us) ++ outAll known last l) n.
Lemma framed_len u : 4 <= len (framed u).
Proof. unfold framed, len. rewrite app_length. cbn [length]. lia. Qed.
Lemma hand_step known m last l p pre us i : (forall s, m s = infosOf known last s) -> Forall (wfPacket known) l -> Forall (fitsAll known) l -> known (kStream p) = Some i -> needsFraming i = true -> connected (kStream p) = true ->
    us <> [] -> Forall (fun u => nal (body u)) us -> Forall (fun b => len b <= cap (kStream p)) (pieces us) ->
  let d := mkDx m (Some (p, pre ++ annexB us, length pre)) (map fst l) in
  exists d' f out k, doProcess d = Some (d', Some f) /\ rel known d' out k /\ (k < length us + fold_right (fun x a => 1 + length (snd x) + a) 0 l)%nat /\
    map (mkD (kStream p) (match kPts p with Some t => toUs (kStream p) t + startTime | None => last (kStream p) + startTime end)) (pieces us) ++ outAll known last l = f :: out.
Proof.
  intros M WF FI K NF CN NE NA CA d. destruct us as [|u rest]; [congruence|]. unfold d, DmxModel.doProcess, fetch. cbn [hand infos source].
  rewrite M. unfold infosOf. rewrite K. rewrite CN. cbn [negb needsFraming]. rewrite NF.
  assert (ST : stamp toUs startTime {| needsFraming := true; isAnnexB := isAnnexB i; lastPTS := last (kStream p) |} p = match kPts p with Some t => toUs (kStream p) t + startTime | None => last (kStream p) + startTime end) by reflexivity.
  cbn [pieces] in CA |- *. rewrite split_step; [|exact (Forall_inv NA)|destruct (len (annexB rest) <? 8); exact (Forall_inv CA)].
  destruct (Z.ltb_spec (len (annexB rest)) 8) as [LT|GE].
  - eexists. eexists. exists (outAll known last l). eexists. split; [reflexivity|]. split; [apply rel_free; [exact M|exact WF|exact FI|reflexivity]|]. split; [cbn [length]; lia|]. rewrite ST. reflexivity.
  - eexists. eexists. eexists. eexists. split; [reflexivity|]. split; [|split].
    + cbn [infos source]. replace (pre ++ annexB (u :: rest)) with ((pre ++ code u ++ body u) ++ annexB rest) by (rewrite annexB_cons, <- !app_assoc; reflexivity).
      apply (rel_hand known m last l (length rest + fold_right (fun x a => 1 + length (snd x) + a) 0 l)%nat p (pre ++ code u ++ body u) rest i M WF FI K NF CN); [destruct rest; [cbn in GE; lia|discriminate]|exact (Forall_inv_tail NA)|exact (Forall_inv_tail CA)|reflexivity].
    + cbn [length]. lia.
    + cbn [map app]. rewrite ST. reflexivity.
Qed.
Lemma step_rel known d out n : rel known d out n -> exists d' o out' k, doProcess d = Some (d', o) /\ rel known d' out' k /\ (k < n \/ n = 0 /\ k = 0)%nat /\ out = (match o with Some f => [f] | None => [] end) ++ out'.
Proof.
  intros R. destruct R as [m last l n M WF FI N|m last l n p pre us i M WF FI K NF CN NE NA CA N].
  - destruct l as [|[p us] l].
    + cbn [map] in *. exists (mkDx m None []), None, [], 0%nat. split; [reflexivity|]. split; [apply (rel_free known m last [] 0); auto|]. split; [right; split; [exact N|reflexivity]|reflexivity].
    + cbn [fold_right snd] in N. pose proof (Forall_inv WF) as W1. apply Forall_inv_tail in WF. pose proof (Forall_inv FI) as F1. apply Forall_inv_tail in FI. unfold wfPacket, fitsAll in W1, F1. cbn [fst snd] in W1, F1. cbn [map fst].
      cbn [DmxSpec.outAll]. cbv zeta. unfold DmxModel.doProcess, fetch. cbn [hand source infos]. rewrite M. unfold infosOf at 1.
      destruct (known (kStream p)) as [i|] eqn:K.
      * cbn [needsFraming isAnnexB]. set (last' := match kPts p with Some t => fun x => if x =? kStream p then t else last x | None => last end).
        set (i' := match kPts p with Some t => {| needsFraming := needsFraming i; isAnnexB := isAnnexB i; lastPTS := t |} | None => {| needsFraming := needsFraming i; isAnnexB := isAnnexB i; lastPTS := last (kStream p) |} end).
        assert (I' : i' = mkPsi (needsFraming i) (isAnnexB i) (last' (kStream p))) by (unfold i', last'; destruct (kPts p); [rewrite Z.eqb_refl|]; reflexivity).
        assert (M' : forall s, setInfo m (kStream p) i' s = infosOf known last' s).
        { intros s. unfold setInfo. destruct (Z.eqb_spec s (kStream p)) as [->|D]; [unfold infosOf; rewrite K, I'; reflexivity|]. rewrite M. unfold infosOf. destruct (known s); [|reflexivity]. unfold last'. destruct (kPts p); [|reflexivity]. destruct (Z.eqb_spec s (kStream p)); [congruence|reflexivity]. }
        specialize (W1 i eq_refl). specialize (F1 i eq_refl).
        assert (NI : needsFraming i' = needsFraming i /\ isAnnexB i' = isAnnexB i) by (rewrite I'; split; reflexivity). destruct NI as [N1 N2]. rewrite N1, N2.
        assert (DROP : rel known (mkDx (setInfo m (kStream p) i') None (map fst l)) (outAll known last' l) (fold_right (fun x a => 1 + length (snd x) + a)%nat 0%nat l)) by (apply rel_free; auto).
        assert (ST : forall b, (if negb (connected (kStream p)) then Some (mkDx (setInfo m (kStream p) i') None (map fst l), None)
           else if needsFraming i then match split (cap (kStream p)) b 0 with None => None | Some (data, e) => Some (mkDx (setInfo m (kStream p) i') (match e with Some n => Some (p, b, n) | None => None end) (map fst l), Some (mkD (kStream p) (stamp toUs startTime i' p) data)) end
           else if len b <=? cap (kStream p) then Some (mkDx (setInfo m (kStream p) i') None (map fst l), Some (mkD (kStream p) (stamp toUs startTime i' p) b)) else None) =
           doProcess (mkDx (setInfo m (kStream p) i') (Some (p, b, 0%nat)) (map fst l))).
        { intros b. unfold DmxModel.doProcess, fetch. cbn [hand infos source]. unfold setInfo at 4. rewrite Z.eqb_refl. rewrite N1. reflexivity. }
        unfold outOf, carried. destruct (needsFraming i) eqn:NF; cbn [andb].
        -- unfold carried in W1. rewrite NF in W1. cbn [andb] in W1.
           assert (GO : forall b, b = annexB us -> us <> [] -> Forall (fun u => nal (body u)) us -> exists d' o out' k,
             (if negb (connected (kStream p)) then Some (mkDx (setInfo m (kStream p) i') None (map fst l), None) else
                match split (cap (kStream p)) b 0 with None => None | Some (data, e) => Some (mkDx (setInfo m (kStream p) i') (match e with Some n => Some (p, b, n) | None => None end) (map fst l), Some (mkD (kStream p) (stamp toUs startTime i' p) data)) end) = Some (d', o) /\
             rel known d' out' k /\ (k < n \/ n = 0 /\ k = 0)%nat /\
             (if negb (connected (kStream p)) then [] else map (mkD (kStream p) (match kPts p with Some t => toUs (kStream p) t + startTime | None => last' (kStream p) + startTime end)) (pieces us)) ++ outAll known last' l = (match o with Some f => [f] | None => [] end) ++ out').
           { intros b EB NE NA. destruct (connected (kStream p)) eqn:CN; cbn [negb].
             - destruct (hand_step known (setInfo m (kStream p) i') last' l p [] us i M' WF FI K NF CN NE NA F1) as (d' & f & out' & k & E & R & KK & EO). cbn [app length] in E. rewrite <- EB in E.
               pose proof (ST b) as ST'. cbn [negb] in ST'. rewrite ST'. exists d', (Some f), out', k. split; [exact E|]. split; [exact R|]. split; [left; lia|]. rewrite EO. reflexivity.
             - eexists. exists None. eexists. eexists. split; [reflexivity|]. split; [exact DROP|]. split; [left; lia|reflexivity]. }
           destruct (isAnnexB i); cbn [negb].
           ++ destruct (W1 eq_refl _ eq_refl) as (EB & NE & NA). cbn [infos source]. rewrite N1. apply (GO _ EB NE NA).
           ++ destruct (kConv p) as [b|]; [destruct (W1 eq_refl _ eq_refl) as (EB & NE & NA); cbn [infos source]; rewrite N1; apply (GO _ EB NE NA)|].
              eexists. exists None. eexists. eexists. split; [reflexivity|]. split; [exact DROP|]. split; [left; lia|]. destruct (connected (kStream p)); reflexivity.
        -- cbn [infos source]. rewrite N1. destruct (connected (kStream p)); cbn [negb].
           ++ destruct (Z.leb_spec (len (kData p)) (cap (kStream p))); [|lia]. eexists. eexists. eexists. eexists. split; [reflexivity|]. split; [exact DROP|]. split; [left; lia|]. cbn [app]. do 2 f_equal. rewrite I'. unfold stamp, last'. cbn [lastPTS]. destruct (kPts p); reflexivity.
           ++ eexists. exists None. eexists. eexists. split; [reflexivity|]. split; [exact DROP|]. split; [left; lia|reflexivity].
      * eexists. exists None. eexists. eexists. split; [reflexivity|]. split; [apply rel_free; [exact M|exact WF|exact FI|reflexivity]|]. split; [left; lia|reflexivity].
  - destruct (hand_step known m last l p pre us i M WF FI K NF CN NE NA CA) as (d' & f & out' & k & E & R & KK & EO). exists d', (Some f), out', k. split; [exact E|]. split; [exact R|]. split; [left; lia|]. rewrite EO. reflexivity.
Qed.
Lemma calls_rel known : forall n d out k, rel known d out k -> exists d' l rest, calls n d = Some (d', l) /\ out = l ++ rest /\ ((k <= n)%nat -> rest = []).
Proof.
  induction n as [|n IH]; intros d out k R.
  - exists d, [], out. split; [reflexivity|]. split; [reflexivity|]. intros K. assert (k = 0)%nat by lia. subst k. inversion R; subst.
    + destruct l as [|[p us] l]; [reflexivity|]. cbn in H2. discriminate.
    + destruct us; [congruence|]. cbn in H8. discriminate.
  - destruct (step_rel known d out k R) as (d1 & o & out1 & k1 & E & R1 & K & EO). destruct (IH d1 out1 k1 R1) as (d2 & l & rest & C & E2 & Z2). cbn [DmxModel.calls]. rewrite E, C.
    exists d2, (match o with Some f => f :: l | None => l end), rest. split; [reflexivity|]. split; [rewrite EO, E2; destruct o; reflexivity|]. intros KK. apply Z2. lia.
Qed.
Theorem stream_out known l : Forall (wfPacket known) l -> Forall (fitsAll known) l -> (forall s i, known s = Some i -> lastPTS i = 0) ->
  forall n, exists d' got rest, calls n (opened known (map fst l)) = Some (d', got) /\ outAll known (fun _ => 0) l = got ++ rest /\ ((fold_right (fun x a => 1 + length (snd x) + a) 0 l <= n)%nat -> rest = []).
Proof.
  intros WF FI Z n. apply (calls_rel known n _ _ (fold_right (fun x a => 1 + length (snd x) + a) 0 l)%nat). apply rel_free; auto. intros s. unfold infosOf. destruct (known s) as [i|] eqn:K; [|reflexivity]. rewrite <- (Z s i K). destruct i; reflexivity.
Qed.
End Stream.
Lemma pieces_roomy : forall us, roomy us -> pieces us = map framed us.
Proof.
  induction us as [|u us IH]; intros R; [reflexivity|]. destruct R as [R1 R2]. cbn [pieces map]. destruct R1 as [->|R1].
  - change (len (annexB [])) with 0. cbn [Z.ltb]. change (annexB []) with (@nil Z). rewrite app_nil_r. reflexivity.
  - destruct (Z.ltb_spec (len (annexB us)) 8); [lia|]. rewrite IH by exact R2. reflexivity.
Qed.
