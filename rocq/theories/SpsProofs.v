(** Proofs about the sequence parameter set reader. *)
From Verif Require Import Base Bytes SpsModel SpsSpec.
Local Open Scope list_scope.
Local Open Scope Z_scope.

(** *** Emulation prevention *)
Lemma len_cons (x : Z) l : len (x :: l) = 1 + len l.
Proof. unfold len. cbn [length]. lia. Qed.
Lemma load_app p x s : load (p ++ x :: s) (len p) = Some x.
Proof. unfold load, len. rewrite app_length. cbn [length]. destruct (Z.leb_spec 0 (Z.of_nat (length p))), (Z.ltb_spec (Z.of_nat (length p)) (Z.of_nat (length p + S (length s)))); try lia.
  cbn [andb]. rewrite Nat2Z.id, app_nth2, Nat.sub_diag by lia. reflexivity. Qed.
Lemma load_app1 p x y s : load (p ++ x :: y :: s) (len p + 1) = Some y.
Proof. replace (p ++ x :: y :: s) with ((p ++ [x]) ++ y :: s) by (rewrite <- app_assoc; reflexivity). replace (len p + 1) with (len (p ++ [x])) by (unfold len; rewrite app_length; cbn [length]; lia). apply load_app. Qed.

(** The zero count after the bytes [l]. *)
Fixpoint zst (z : nat) (l : bytes) : nat :=
  match l with [] => z | x :: r => if (z =? 2)%nat && (x <=? 3) then zst (if x =? 0 then 1%nat else 0%nat) r else zst (if x =? 0 then S z else 0%nat) r end.

Lemma nalLoop_emulate : forall l z pre fuel j acc cap, (z <= 2)%nat -> Forall isByte l -> zst z l <> 1%nat ->
  (length (emulate z l) <= fuel)%nat -> j + len l <= cap ->
  nalLoop fuel (pre ++ emulate z l) cap (len pre) j (Z.of_nat z) acc = Got (Some (rev acc ++ l)).
Proof.
  induction l as [|x r IH]; intros z pre fuel j acc cap Hz HB HS HF HC.
  - cbn [emulate zst] in *. rewrite app_nil_r. destruct z as [|[|[|]]]; try lia.
    + cbn [Nat.ltb Nat.leb]. rewrite app_nil_r. destruct fuel; [reflexivity|]. cbn [nalLoop]. rewrite Z.ltb_irrefl. reflexivity.
    + change (0 <? 2)%nat with true in *. cbv iota in *. destruct fuel as [|fuel]; [reflexivity|]. cbn [nalLoop]. rewrite load_app.
      rewrite len_app. change (len [3]) with 1. destruct (Z.ltb_spec (len pre) (len pre + 1)); [|lia].
      change (Z.of_nat 2 =? 2) with true. cbn [andb Z.ltb Z.eqb Z.compare Pos.compare Pos.compare_cont Pos.eqb].
      destruct (Z.eqb_spec (len pre) (len pre + 1 - 1)); [reflexivity|lia].
  - inversion HB as [|? ? Hx HB']; subst. cbn [emulate zst] in *. rewrite len_cons in HC. destruct ((z =? 2)%nat && (x <=? 3)) eqn:E.
    + apply andb_prop in E. destruct E as [E1 E2]. apply Nat.eqb_eq in E1. subst z. apply Z.leb_le in E2.
      cbn [length] in HF. destruct fuel as [|fuel]; [lia|]. cbn [nalLoop]. rewrite load_app, load_app1. rewrite len_app, !len_cons.
      set (z' := if x =? 0 then 1%nat else 0%nat) in *. pose proof (len_nonneg (emulate z' r)).
      destruct (Z.ltb_spec (len pre) (len pre + (1 + (1 + len (emulate z' r))))); [|lia].
      change (Z.of_nat 2 =? 2) with true. cbn [andb Z.ltb Z.eqb Z.compare Pos.compare Pos.compare_cont Pos.eqb].
      destruct (Z.eqb_spec (len pre) (len pre + (1 + (1 + len (emulate z' r))) - 1)); [lia|].
      destruct (Z.ltb_spec 3 x); [lia|]. pose proof (len_nonneg r). destruct (Z.leb_spec cap j); [lia|].
      replace (pre ++ 3 :: x :: emulate z' r) with ((pre ++ [3; x]) ++ emulate z' r) by (rewrite <- app_assoc; reflexivity).
      replace (len pre + 2) with (len (pre ++ [3; x])) by (rewrite len_app; reflexivity).
      replace (if x =? 0 then 1 else 0) with (Z.of_nat z') by (unfold z'; destruct (x =? 0); reflexivity).
      rewrite IH; [cbn [rev]; rewrite <- app_assoc; reflexivity|unfold z'; destruct (x =? 0); lia|assumption|assumption|lia|lia].
    + cbn [length] in HF. destruct fuel as [|fuel]; [lia|]. cbn [nalLoop]. rewrite load_app. rewrite len_app, len_cons.
      set (z' := if x =? 0 then S z else 0%nat) in *. pose proof (len_nonneg (emulate z' r)).
      destruct (Z.ltb_spec (len pre) (len pre + (1 + len (emulate z' r)))); [|lia].
      assert (E3 : (Z.of_nat z =? 2) && (x <? 3) = false).
      { destruct (Z.eqb_spec (Z.of_nat z) 2) as [E3|]; [|reflexivity]. assert (z = 2%nat) by lia. subst z. cbn in E. apply Z.leb_gt in E. cbn [andb]. apply Z.ltb_ge. lia. }
      assert (E4 : (Z.of_nat z =? 2) && (x =? 3) = false).
      { destruct (Z.eqb_spec (Z.of_nat z) 2) as [E4|]; [|reflexivity]. assert (z = 2%nat) by lia. subst z. cbn in E. apply Z.leb_gt in E. cbn [andb]. apply Z.eqb_neq. lia. }
      rewrite E3, E4. pose proof (len_nonneg r). destruct (Z.leb_spec cap j); [lia|].
      replace (pre ++ x :: emulate z' r) with ((pre ++ [x]) ++ emulate z' r) by (rewrite <- app_assoc; reflexivity).
      replace (len pre + 1) with (len (pre ++ [x])) by (rewrite len_app; reflexivity).
      replace (if x =? 0 then Z.of_nat z + 1 else 0) with (Z.of_nat z') by (unfold z'; destruct (x =? 0); lia).
      rewrite IH; [cbn [rev]; rewrite <- app_assoc; reflexivity| |assumption|assumption|lia|lia].
      unfold z'. destruct (Z.eqb_spec x 0) as [->|]; [|lia]. destruct (Nat.eqb_spec z 2) as [->|]; [discriminate|lia].
Qed.
(** No byte before the first is dropped: the loop starts at 1. *)
Lemma emulate_len : forall l z, len l <= len (emulate z l).
Proof. induction l as [|x r IH]; intros z; cbn [emulate]; [destruct (0 <? z)%nat; cbn; lia|]. destruct (_ && _); rewrite !len_cons; [pose proof (IH (if x =? 0 then 1%nat else 0%nat))|pose proof (IH (if x =? 0 then S z else 0%nat))]; lia. Qed.
Theorem nal_roundtrip h l : Forall isByte l -> zst 0 l <> 1%nat -> nal_to_rbsp (nalUnit h l) (len (nalUnit h l)) = Got (Some l).
Proof.
  intros HB HS. unfold nal_to_rbsp. apply (nalLoop_emulate l 0 [h] (length (nalUnit h l)) 0 [] (len (nalUnit h l))); [lia|assumption|assumption| |].
  - unfold nalUnit. cbn [length]. lia.
  - unfold nalUnit. rewrite len_cons. pose proof (emulate_len l 0). lia.
Qed.
Lemma zst_app : forall l1 l2 z, zst z (l1 ++ l2) = zst (zst z l1) l2.
Proof. induction l1 as [|x r IH]; intros l2 z; cbn [zst app]; [reflexivity|]. destruct (_ && _); apply IH. Qed.
Lemma zst_le : forall l z, (z <= 2)%nat -> (zst z l <= 2)%nat.
Proof.
  induction l as [|x r IH]; intros z H; cbn [zst]; [exact H|]. destruct ((z =? 2)%nat && (x <=? 3)) eqn:E; apply IH; destruct (Z.eqb_spec x 0) as [->|]; destruct z as [|[|[|]]]; try discriminate; lia.
Qed.
Lemma zst_last x : x <> 0 -> forall l, zst 0 (l ++ [x]) = 0%nat.
Proof. intros N l. rewrite zst_app. cbn [zst]. destruct (Z.eqb_spec x 0); [contradiction|]. destruct (_ && _); reflexivity. Qed.
Lemma zst_pairs : forall k z, z <> 1%nat -> (z <= 2)%nat -> zst z (repeat 0 (2 * k)) <> 1%nat.
Proof.
  induction k as [|k IH]; intros z N L; [exact N|]. replace (2 * S k)%nat with (S (S (2 * k))) by lia. cbn [repeat zst].
  destruct z as [|[|[|]]]; try lia; cbn [Nat.eqb andb Z.leb Z.eqb Z.compare]; apply IH; lia.
Qed.

(** Conversely, what is accepted is an encapsulation, up to a missing final 3. *)
Lemma nalLoop_accepts : forall fuel n z pre cap j acc l, (z <= 2)%nat -> (length n <= fuel)%nat ->
  nalLoop fuel (pre ++ n) cap (len pre) j (Z.of_nat z) acc = Got (Some l) -> exists r, l = rev acc ++ r /\ (n = emulate z r \/ n ++ [3] = emulate z r).
Proof.
  induction fuel as [|fuel IH]; intros n z pre cap j acc l Hz HF H.
  - destruct n; [|cbn in HF; lia]. cbn [nalLoop] in H. injection H as <-. exists []. rewrite app_nil_r. split; [reflexivity|]. cbn [emulate]. destruct (0 <? z)%nat; [right|left]; reflexivity.
  - cbn [nalLoop] in H. destruct n as [|x n].
    + rewrite app_nil_r, Z.ltb_irrefl in H. injection H as <-. exists []. rewrite app_nil_r. split; [reflexivity|]. cbn [emulate]. destruct (0 <? z)%nat; [right|left]; reflexivity.
    + rewrite load_app in H. rewrite len_app, len_cons in H. pose proof (len_nonneg n). destruct (Z.ltb_spec (len pre) (len pre + (1 + len n))); [|lia].
      destruct (Z.eqb_spec (Z.of_nat z) 2) as [EZ|NZ].
      * assert (z = 2%nat) by lia. subst z. cbn [andb] in H. destruct (Z.ltb_spec x 3); [discriminate|]. destruct (Z.eqb_spec x 3) as [->|N3].
        -- destruct (Z.eqb_spec (len pre) (len pre + (1 + len n) - 1)) as [EL|NL].
           ++ injection H as <-. assert (n = []) as -> by (destruct n; [reflexivity|rewrite len_cons in EL; pose proof (len_nonneg n); lia]).
              exists []. rewrite app_nil_r. split; [reflexivity|]. left. reflexivity.
           ++ destruct n as [|y n]; [cbn in NL; lia|]. rewrite load_app1 in H. destruct (Z.ltb_spec 3 y); [discriminate|]. destruct (cap <=? j); [discriminate|].
              replace (pre ++ 3 :: y :: n) with ((pre ++ [3; y]) ++ n) in H by (rewrite <- app_assoc; reflexivity).
              replace (len pre + 2) with (len (pre ++ [3; y])) in H by (rewrite len_app; reflexivity).
              replace (if y =? 0 then 1 else 0) with (Z.of_nat (if y =? 0 then 1%nat else 0%nat)) in H by (destruct (y =? 0); reflexivity).
              apply IH in H; [|destruct (y =? 0); lia|cbn in HF; lia]. destruct H as (r & -> & H). exists (y :: r). cbn [rev]. rewrite <- app_assoc. split; [reflexivity|].
              cbn [emulate Nat.eqb andb]. destruct (Z.leb_spec y 3); [|lia]. destruct H as [->|H]; [left; reflexivity|right]. cbn [app]. rewrite H. reflexivity.
        -- destruct (cap <=? j); [discriminate|].
           replace (pre ++ x :: n) with ((pre ++ [x]) ++ n) in H by (rewrite <- app_assoc; reflexivity).
           replace (len pre + 1) with (len (pre ++ [x])) in H by (rewrite len_app; reflexivity).
           destruct (Z.eqb_spec x 0); [lia|]. change 0 with (Z.of_nat 0) in H at 1. apply IH in H; [|lia|cbn in HF; lia]. destruct H as (r & -> & H).
           exists (x :: r). cbn [rev]. rewrite <- app_assoc. split; [reflexivity|]. cbn [emulate Nat.eqb andb]. destruct (Z.leb_spec x 3); [lia|].
           destruct (Z.eqb_spec x 0); [lia|]. destruct H as [->|H]; [left; reflexivity|right]. cbn [app]. rewrite H. reflexivity.
      * cbn [andb] in H. destruct (cap <=? j); [discriminate|].
        replace (pre ++ x :: n) with ((pre ++ [x]) ++ n) in H by (rewrite <- app_assoc; reflexivity).
        replace (len pre + 1) with (len (pre ++ [x])) in H by (rewrite len_app; reflexivity).
        replace (if x =? 0 then Z.of_nat z + 1 else 0) with (Z.of_nat (if x =? 0 then S z else 0%nat)) in H by (destruct (x =? 0); lia).
        apply IH in H; [|destruct (x =? 0); lia|cbn in HF; lia]. destruct H as (r & -> & H).
        exists (x :: r). cbn [rev]. rewrite <- app_assoc. split; [reflexivity|]. cbn [emulate]. assert (E2 : (z =? 2)%nat = false) by (apply Nat.eqb_neq; lia). rewrite E2. cbn [andb].
        destruct H as [->|H]; [left; reflexivity|right]. cbn [app]. rewrite H. reflexivity.
Qed.

(** Loads stay inside, whatever the bytes. *)
Lemma load_in buf i : 0 <= i < len buf -> load buf i = Some (nth (Z.to_nat i) buf 0).
Proof. intros H. unfold load. destruct (Z.leb_spec 0 i), (Z.ltb_spec i (len buf)); try lia. reflexivity. Qed.
Lemma nalLoop_safe : forall fuel nal cap i j c acc, 0 <= i -> exists r, nalLoop fuel nal cap i j c acc = Got r.
Proof.
  induction fuel as [|fuel IH]; intros nal cap i j c acc Hi; cbn [nalLoop]; [eexists; reflexivity|].
  destruct (Z.ltb_spec i (len nal)); [|eexists; reflexivity]. rewrite load_in by lia. destruct (_ && _); [eexists; reflexivity|]. destruct (_ && _).
  - destruct (Z.eqb_spec i (len nal - 1)); [eexists; reflexivity|]. rewrite load_in by lia. destruct (3 <? _); [eexists; reflexivity|]. destruct (cap <=? j); [eexists; reflexivity|]. apply IH. lia.
  - destruct (cap <=? j); [eexists; reflexivity|]. apply IH. lia.
Qed.
Lemma nalLoop_short : forall fuel nal cap i j c acc l, nalLoop fuel nal cap i j c acc = Got (Some l) -> j = len acc -> (j <= cap) -> len l <= cap.
Proof.
  induction fuel as [|fuel IH]; intros nal cap i j c acc l H E HC; cbn [nalLoop] in H; [injection H as <-; unfold len in *; rewrite rev_length; lia|].
  destruct (i <? len nal); [|injection H as <-; unfold len in *; rewrite rev_length; lia]. destruct (load nal i) as [x|]; [|discriminate]. destruct (_ && _); [discriminate|]. destruct (_ && _).
  - destruct (i =? len nal - 1); [injection H as <-; unfold len in *; rewrite rev_length; lia|]. destruct (load nal (i + 1)) as [y|]; [|discriminate]. destruct (3 <? y); [discriminate|].
    destruct (Z.leb_spec cap j); [discriminate|]. apply IH in H; [exact H|rewrite len_cons; lia|lia].
  - destruct (Z.leb_spec cap j); [discriminate|]. apply IH in H; [exact H|rewrite len_cons; lia|lia].
Qed.

(** *** The bit reader on arbitrary input *)
Definition bok (b : bs) : Prop := 0 <= bp b /\ 1 <= bleft b <= 8.
Definition safe {A} (m : reader A) : Prop := forall b, bok b -> match m b with Got (_, b') => bok b' /\ bbuf b' = bbuf b | Oob => False | _ => True end.
Lemma advance_ok b l : bok b -> 0 <= l <= 7 -> bok (advance b l) /\ bbuf (advance b l) = bbuf b.
Proof. intros [A B] L. unfold advance. destruct (Z.eqb_spec l 0); split; try reflexivity; split; cbn; lia. Qed.
Lemma safe_u1 : safe read_u1.
Proof.
  intros b B. unfold read_u1. pose proof (advance_ok b (bleft b - 1) B ltac:(destruct B; lia)). destruct (bs_eof b) eqn:E; [assumption|].
  unfold bs_eof in E. apply Z.leb_gt in E. rewrite load_in by (destruct B; lia). assumption.
Qed.
Lemma safe_ret A (a : A) : safe (ret a).
Proof. intros b B. cbn. split; [exact B|reflexivity]. Qed.
Lemma safe_ovr A : safe (fail (@Ovr (A * bs))). Proof. intros b B. exact Logic.I. Qed.
Lemma safe_ovf A : safe (fail (@Ovf (A * bs))). Proof. intros b B. exact Logic.I. Qed.
Lemma safe_bind A B (m : reader A) (k : A -> reader B) : safe m -> (forall a, safe (k a)) -> safe (bind m k).
Proof.
  intros M K b O. unfold bind. specialize (M b O). destruct (m b) as [[a b']| | |]; try exact M. destruct M as [M1 M2]. specialize (K a b' M1).
  destruct (k a b') as [[c b2]| | |]; try exact K. destruct K as [K1 K2]. split; [exact K1|congruence].
Qed.
Lemma safe_if A (c : bool) (m n : reader A) : safe m -> safe n -> safe (if c then m else n).
Proof. destruct c; auto. Qed.
Lemma safe_uLoop : forall i r, safe (read_uLoop i r).
Proof. induction i as [|i IH]; intros r; [apply safe_ret|]. apply safe_bind; [apply safe_u1|intros x; apply IH]. Qed.
Lemma safe_u n : safe (read_u n). Proof. apply safe_uLoop. Qed.
Lemma safe_u8 : safe read_u8.
Proof.
  intros b B. unfold read_u8. destruct (_ && _) eqn:E; [|apply (safe_u 8 b B)]. apply andb_prop in E. destruct E as [E1 E2]. apply negb_true_iff in E2. unfold bs_eof in E2.
  apply Z.leb_gt in E2. rewrite load_in by (destruct B; lia). split; [|reflexivity]. destruct B. split; cbn; lia.
Qed.
Lemma safe_zeros : forall fuel i, safe (zeros fuel i).
Proof.
  induction fuel as [|fuel IH]; intros i b B; cbn [zeros]; [split; [exact B|reflexivity]|]. pose proof (safe_u1 b B) as S1. destruct (read_u1 b) as [[x b']| | |]; try exact S1.
  destruct S1 as [S1 S2]. destruct (_ && _); [|split; assumption]. specialize (IH (i + 1) b' S1). destruct (zeros fuel (i + 1) b') as [[c b2]| | |]; try exact IH. destruct IH as [K1 K2]. split; [exact K1|congruence].
Qed.
Lemma safe_ue : safe read_ue.
Proof. apply safe_bind; [apply safe_zeros|intros i]. apply safe_bind; [apply safe_u|intros r]. apply safe_if; [apply safe_ovf|apply safe_ret]. Qed.
Lemma safe_se : safe read_se.
Proof. apply safe_bind; [apply safe_ue|intros r; apply safe_ret]. Qed.
Lemma safe_times A (m : reader A) : safe m -> forall n, safe (times n m).
Proof. intros M. induction n as [|n IH]; [apply safe_ret|]. apply safe_bind; [exact M|intros _; exact IH]. Qed.
Lemma safe_align : forall n, safe (align n).
Proof.
  induction n as [|n IH]; intros b B; cbn [align]; [split; [exact B|reflexivity]|]. destruct (bleft b =? 8); [split; [exact B|reflexivity]|].
  apply (safe_bind _ _ read_u1 (fun _ => align n)); [apply safe_u1|intros _; exact IH|exact B].
Qed.
Ltac sf := repeat first [apply safe_u1|apply safe_u8|apply safe_u|apply safe_ue|apply safe_se|apply safe_ret|apply safe_ovr|apply safe_ovf|apply safe_align|apply safe_times|apply safe_if|apply safe_bind; [|intros ?]].
Lemma safe_high : safe read_high. Proof. unfold read_high, read_scaling_list. sf. Qed.
Lemma safe_poc : safe read_poc. Proof. unfold read_poc. sf. Qed.
Lemma safe_hrd : safe read_hrd. Proof. unfold read_hrd. sf. Qed.
Lemma safe_vui : safe read_vui. Proof. unfold read_vui. repeat first [apply safe_hrd|progress sf]. Qed.
Theorem safe_sps : safe read_sps.
Proof.
  unfold read_sps, read_trailing. repeat first [apply safe_high|apply safe_poc|apply safe_vui|progress sf].
  all: match goal with |- safe (match ?x with _ => _ end) => destruct x as [[[? ?] ?] ?]; sf end.
Qed.
Theorem updateSPSInfo_inside nal f : updateSPSInfo nal f <> Oob.
Proof.
  unfold updateSPSInfo. destruct (nalLoop_safe (length nal) nal (len nal) 1 0 0 [] ltac:(lia)) as (r & E). unfold nal_to_rbsp. rewrite E. destruct r as [l|]; [|discriminate].
  pose proof (safe_sps (bs_new l)) as S. unfold bok, bs_new in S. cbn [bp bleft] in S. specialize (S ltac:(lia)). fold (bs_new l) in S.
  destruct (read_sps (bs_new l)) as [[s b]| | |]; [|contradiction|discriminate|discriminate].
  unfold updateInfo, sizeOf. destruct (negb _); [discriminate|]. destruct (spCrop s =? 0).
  - destruct (0 <? spUnits s); [destruct (negb _)|]; discriminate.
  - destruct (negb _); [discriminate|]. destruct (0 <? spUnits s); [destruct (negb _)|]; discriminate.
Qed.

(** *** Reading inverts the standard's codes *)
Definition pos (b : bs) : nat := (8 * Z.to_nat (bp b) + (8 - Z.to_nat (bleft b)))%nat.
Definition rest (b : bs) : list bool := skipn (pos b) (bitsOf (bbuf b)).
(** [m] reads the bits [l] and gives [a]. *)
Definition reads {A} (m : reader A) (l : list bool) (a : A) : Prop :=
  forall b t, bok b -> Forall isByte (bbuf b) -> rest b = l ++ t -> exists b', m b = Got (a, b') /\ bok b' /\ bbuf b' = bbuf b /\ rest b' = t /\ pos b' = (pos b + length l)%nat.
Lemma u_length : forall n v, length (u_ n v) = n.
Proof. induction n as [|n IH]; intros v; cbn; [reflexivity|rewrite IH; reflexivity]. Qed.
Lemma bitsOf_length buf : length (bitsOf buf) = (8 * length buf)%nat.
Proof. unfold bitsOf. induction buf as [|x r IH]; [reflexivity|]. cbn [map concat]. rewrite app_length, IH, u_length. cbn [length]. lia. Qed.
Lemma bitsOf_nth : forall buf i k d, (i < length buf)%nat -> (k < 8)%nat -> nth (8 * i + k) (bitsOf buf) d = Z.testbit (nth i buf 0) (7 - Z.of_nat k).
Proof.
  induction buf as [|x r IH]; intros i k d Hi Hk; [cbn in Hi; lia|]. unfold bitsOf in *. cbn [map concat]. destruct i as [|i].
  - rewrite app_nth1 by (rewrite u_length; lia). cbn [nth]. do 8 (destruct k as [|k]; [reflexivity|]). lia.
  - rewrite app_nth2 by (rewrite u_length; lia). rewrite u_length. replace (8 * S i + k - 8)%nat with (8 * i + k)%nat by lia. cbn [nth]. apply IH; [cbn in Hi; lia|exact Hk].
Qed.
Lemma skipn_cons (A : Type) : forall n (l : list A) x t, skipn n l = x :: t -> (n < length l)%nat /\ (forall d, nth n l d = x) /\ skipn (S n) l = t.
Proof. induction n as [|n IH]; intros [|y l] x t H; cbn in *; try discriminate; [injection H as -> ->; repeat split; lia|]. destruct (IH l x t H) as (A1 & A2 & A3). repeat split; [lia|exact A2|exact A3]. Qed.
Lemma pos_advance b : bok b -> pos (advance b (bleft b - 1)) = S (pos b).
Proof. intros [A B]. unfold pos, advance. destruct (Z.eqb_spec (bleft b - 1) 0); cbn [bp bleft]; lia. Qed.
Definition bz (x : bool) : Z := if x then 1 else 0.
Lemma land1 x : Z.land x 1 = bz (Z.odd x).
Proof. change 1 with (Z.ones 1). rewrite Z.land_ones by lia. rewrite Zmod_odd. reflexivity. Qed.
Lemma reads_u1 x : reads read_u1 [x] (bz x).
Proof.
  intros b t O HB R. unfold rest in R. apply skipn_cons in R. destruct R as (R1 & R2 & R3). rewrite bitsOf_length in R1.
  destruct O as [O1 O2]. assert (P : (Z.to_nat (bp b) < length (bbuf b))%nat) by (unfold pos in R1; lia).
  unfold read_u1. unfold bs_eof. destruct (Z.leb_spec (len (bbuf b)) (bp b)) as [E|E]; [unfold len in E; lia|].
  rewrite load_in by lia. eexists. split; [|split; [|split; [|split]]].
  - assert (E2 : Z.land (Z.shiftr (nth (Z.to_nat (bp b)) (bbuf b) 0) (bleft b - 1)) 1 = bz x).
    { rewrite land1. rewrite <- Z.bit0_odd, Z.shiftr_spec by lia. f_equal. rewrite <- (R2 false). unfold pos. rewrite bitsOf_nth by lia. f_equal. lia. }
    rewrite E2. reflexivity.
  - apply advance_ok; [split; assumption|lia].
  - unfold advance. destruct (_ =? 0); reflexivity.
  - unfold rest. rewrite pos_advance by (split; assumption). unfold advance. destruct (_ =? 0); exact R3.
  - rewrite pos_advance by (split; assumption). cbn [length]. lia.
Qed.
Lemma reads_ret A (a : A) : reads (ret a) [] a.
Proof. intros b t O HB R. exists b. repeat split; try apply O; [exact R|cbn [length]; lia]. Qed.
Lemma reads_bind A B (m : reader A) (k : A -> reader B) l1 l2 a c : reads m l1 a -> reads (k a) l2 c -> reads (bind m k) (l1 ++ l2) c.
Proof.
  intros M K b t O HB R. rewrite <- app_assoc in R. destruct (M b _ O HB R) as (b1 & E1 & O1 & B1 & R1 & P1). rewrite <- B1 in HB. destruct (K b1 t O1 HB R1) as (b2 & E2 & O2 & B2 & R2 & P2).
  exists b2. unfold bind. rewrite E1. split; [exact E2|]. split; [exact O2|]. split; [congruence|]. split; [exact R2|]. rewrite app_length. lia.
Qed.
Lemma reads_bind0 A B (m : reader A) (k : A -> reader B) l a c : reads m [] a -> reads (k a) l c -> reads (bind m k) l c.
Proof. intros M K. apply (reads_bind A B m k [] l a c M K). Qed.

Lemma reads_uLoop : forall i v r, (i <= 32)%nat -> r mod 2 ^ Z.of_nat i = 0 -> reads (read_uLoop i r) (u_ i v) (r + v mod 2 ^ Z.of_nat i).
Proof.
  induction i as [|i IH]; intros v r Hi Hr.
  - change (2 ^ Z.of_nat 0) with 1. rewrite Z.mod_1_r, Z.add_0_r. apply reads_ret.
  - cbn [read_uLoop u_]. set (x := Z.testbit v (Z.of_nat i)). apply (reads_bind Z Z read_u1 _ [x] (u_ i v) (bz x)); [apply reads_u1|].
    assert (P : 0 < 2 ^ Z.of_nat i) by (apply Z.pow_pos_nonneg; lia).
    assert (P32 : 2 ^ Z.of_nat i < 2 ^ 32) by (apply Z.pow_lt_mono_r; lia).
    rewrite Nat2Z.inj_succ, Z.pow_succ_r in Hr |- * by lia.
    assert (E : Z.lor r (Z.shiftl (bz x) (Z.of_nat i) mod 2 ^ 32) = r + bz x * 2 ^ Z.of_nat i).
    { rewrite Z.shiftl_mul_pow2 by lia. rewrite Z.mod_small by (destruct x; cbn [bz]; lia).
      assert (L : Z.land r (bz x * 2 ^ Z.of_nat i) = 0).
      { apply Z.bits_inj'. intros n Hn. rewrite Z.land_spec, Z.bits_0. destruct x; cbn [bz]; [|rewrite Z.mul_0_l, Z.bits_0; apply andb_false_r].
        rewrite Z.mul_1_l. destruct (Z.eq_dec n (Z.of_nat i)) as [->|N]; [|rewrite (Z.pow2_bits_false _ n) by congruence; apply andb_false_r].
        rewrite <- (Z.mod_pow2_bits_low r (Z.succ (Z.of_nat i))) by lia. rewrite Z.pow_succ_r, Hr by lia. rewrite Z.bits_0. reflexivity. }
      rewrite <- Z.lxor_lor, <- Z.add_nocarry_lxor by exact L. reflexivity. }
    rewrite E. set (r2 := r + bz x * 2 ^ Z.of_nat i).
    assert (Hr2 : r2 mod 2 ^ Z.of_nat i = 0).
    { unfold r2. rewrite Z.mod_add by lia. apply Z.mod_divide; [lia|]. apply Z.mod_divide in Hr; [|lia]. destruct Hr as (q & ->). exists (q * 2). lia. }
    assert (EV : r2 + v mod 2 ^ Z.of_nat i = r + v mod (2 * 2 ^ Z.of_nat i)).
    { unfold r2. rewrite (Z.mul_comm 2). rewrite Z.rem_mul_r by lia.
      assert (EX : bz x = (v / 2 ^ Z.of_nat i) mod 2). { unfold x. rewrite <- Z.testbit_spec' by lia. unfold bz, Z.b2z. reflexivity. }
      rewrite EX. ring. }
    rewrite <- EV. apply IH; [lia|exact Hr2].
Qed.
Lemma reads_u n v : (n <= 32)%nat -> reads (read_u n) (u_ n v) (v mod 2 ^ Z.of_nat n).
Proof. intros H. apply (reads_uLoop n v 0 H). apply Z.mod_0_l. apply Z.pow_nonzero; lia. Qed.
Lemma u_mod v : isByte v -> forall a, u_ 8 a = u_ 8 v -> a mod 256 = v.
Proof.
  intros [H1 H2] a E. rewrite <- (Z.mod_small v 256) by lia. change 256 with (2 ^ 8). apply Z.bits_inj'. intros n Hn.
  destruct (Z.lt_ge_cases n 8); [|rewrite !Z.mod_pow2_bits_high by lia; reflexivity]. rewrite !Z.mod_pow2_bits_low by lia. cbn [u_] in E. injection E as E0 E1 E2 E3 E4 E5 E6 E7.
  assert (C : n = 0 \/ n = 1 \/ n = 2 \/ n = 3 \/ n = 4 \/ n = 5 \/ n = 6 \/ n = 7) by lia. destruct C as [->|[->|[->|[->|[->|[->|[->| ->]]]]]]]; assumption.
Qed.
Lemma skipn_skipn (A : Type) a : forall b (l : list A), skipn a (skipn b l) = skipn (b + a) l.
Proof. induction b as [|b IH]; intros l; [reflexivity|]. destruct l as [|x l]; [cbn [skipn]; apply skipn_nil|]. cbn [Nat.add skipn]. apply IH. Qed.
Lemma skipn_bitsOf : forall i buf, skipn (8 * i) (bitsOf buf) = bitsOf (skipn i buf).
Proof.
  induction i as [|i IH]; intros [|x buf]; try reflexivity. replace (8 * S i)%nat with (8 + 8 * i)%nat by lia.
  rewrite <- skipn_skipn. unfold bitsOf at 1. cbn [map concat]. rewrite skipn_app, (skipn_all2 (u_ 8 x)) by (rewrite u_length; lia). rewrite u_length, Nat.sub_diag. cbn [app skipn]. apply IH.
Qed.
Lemma reads_u8 v : reads read_u8 (u_ 8 v) (v mod 256).
Proof.
  intros b t O HB R. unfold read_u8. destruct (_ && _) eqn:E; [|apply (reads_u 8 v ltac:(lia) b t O HB R)]. apply andb_prop in E. destruct E as [E1 E2]. apply Z.eqb_eq in E1.
  apply negb_true_iff in E2. unfold bs_eof in E2. apply Z.leb_gt in E2. destruct O as [O1 O2]. rewrite load_in by lia. unfold rest, pos in R. rewrite E1 in R.
  replace (8 * Z.to_nat (bp b) + (8 - Z.to_nat 8))%nat with (8 * Z.to_nat (bp b))%nat in R by lia.
  pose proof R as R'. rewrite skipn_bitsOf in R. destruct (skipn (Z.to_nat (bp b)) (bbuf b)) as [|y s] eqn:ES.
  { apply (f_equal (@length Z)) in ES. rewrite skipn_length in ES. cbn in ES. unfold len in E2. lia. }
  pose proof (skipn_cons _ _ _ _ _ ES) as (S1 & S2 & S3). rewrite S2.
  assert (Y : isByte y). { rewrite Forall_forall in HB. apply HB. rewrite <- (S2 0). apply nth_In. exact S1. }
  unfold bitsOf in R. cbn [map concat] in R. fold (bitsOf s) in R.
  assert (EQ : u_ 8 v = u_ 8 y /\ t = bitsOf s).
  { assert (L : firstn 8 (u_ 8 y ++ bitsOf s) = firstn 8 (u_ 8 v ++ t)) by (rewrite R; reflexivity). assert (L2 : skipn 8 (u_ 8 y ++ bitsOf s) = skipn 8 (u_ 8 v ++ t)) by (rewrite R; reflexivity).
    cbn [u_ app firstn] in L. cbn [u_ app skipn] in L2. split; [symmetry; exact L|symmetry; exact L2]. }
  destruct EQ as [EQ ->]. rewrite (u_mod y Y v EQ). eexists. split; [reflexivity|]. split; [split; cbn; lia|]. split; [reflexivity|].
  unfold rest, pos. cbn [bp bleft bbuf]. rewrite u_length, E1. replace (8 * Z.to_nat (bp b + 1) + (8 - Z.to_nat 8))%nat with (8 * S (Z.to_nat (bp b)))%nat by lia. rewrite skipn_bitsOf, S3. split; [reflexivity|lia].
Qed.
Lemma not_eof b x t : bok b -> rest b = x :: t -> bs_eof b = false.
Proof.
  intros [O1 O2] R. unfold rest in R. apply skipn_cons in R. destruct R as (R1 & _). rewrite bitsOf_length in R1. unfold pos in R1. unfold bs_eof, len. apply Z.leb_gt. lia.
Qed.
Lemma reads_zeros : forall k fuel i, (k < fuel)%nat -> 0 <= i -> i + Z.of_nat k <= 32 -> reads (zeros fuel i) (repeat false k ++ [true]) (i + Z.of_nat k).
Proof.
  induction k as [|k IH]; intros fuel i HF Hi H32 b t O HB R; (destruct fuel as [|fuel]; [lia|]).
  - cbn [repeat app] in R. destruct (reads_u1 true b t O HB R) as (b1 & E1 & O1 & B1 & R1 & P1). exists b1. cbn [zeros]. rewrite E1. cbn [bz Z.eqb andb]. rewrite Z.add_0_r. auto.
  - cbn [repeat app] in R. destruct (reads_u1 false b _ O HB R) as (b1 & E1 & O1 & B1 & R1 & P1). cbn [zeros]. rewrite E1. cbn [bz]. change (0 =? 0) with true.
    assert (NE : bs_eof b1 = false). { destruct k; cbn [repeat app] in R1; apply (not_eof _ _ _ O1 R1). }
    rewrite NE. destruct (Z.ltb_spec i 32); [|lia]. cbn [andb negb]. rewrite <- B1 in HB. destruct (IH fuel (i + 1) ltac:(lia) ltac:(lia) ltac:(lia) b1 t O1 HB R1) as (b2 & E2 & O2 & B2 & R2 & P2).
    exists b2. rewrite E2. replace (i + 1 + Z.of_nat k) with (i + Z.of_nat (S k)) by lia. split; [reflexivity|]. split; [exact O2|]. split; [congruence|]. split; [exact R2|]. rewrite P2, P1. cbn [repeat app length]. lia.
Qed.
Lemma reads_ue v : ueOk v -> reads read_ue (ue_ v) v.
Proof.
  intros [H1 H2]. unfold ue_. set (k := Z.log2 (v + 1)). assert (K0 : 0 <= k) by apply Z.log2_nonneg.
  assert (K1 : 2 ^ k <= v + 1 < 2 ^ Z.succ k) by (apply Z.log2_spec; lia).
  assert (K2 : k <= 30). { assert (k < 31); [|lia]. apply Z.log2_lt_pow2; lia. }
  cbn [u_]. rewrite Z2Nat.id by lia. replace (Z.testbit (v + 1) k) with true by (symmetry; apply Z.bit_log2; lia).
  change (repeat false (Z.to_nat k) ++ true :: u_ (Z.to_nat k) (v + 1)) with (repeat false (Z.to_nat k) ++ [true] ++ u_ (Z.to_nat k) (v + 1)). rewrite app_assoc.
  unfold read_ue. assert (RZ := reads_zeros (Z.to_nat k) 40 0 ltac:(lia) ltac:(lia) ltac:(lia)). rewrite Z2Nat.id in RZ by lia. rewrite Z.add_0_l in RZ.
  apply (reads_bind _ _ _ _ _ _ k); [exact RZ|]. cbv beta.
  assert (E : v = (v + 1) mod 2 ^ Z.of_nat (Z.to_nat k) + (Z.shiftl 1 k - 1)).
  { rewrite Z2Nat.id by lia. rewrite Z.shiftl_mul_pow2 by lia. rewrite Z.pow_succ_r in K1 by lia. rewrite <- (Z.mod_unique (v + 1) (2 ^ k) 1 (v + 1 - 2 ^ k)); lia. }
  rewrite <- (app_nil_r (u_ (Z.to_nat k) (v + 1))). apply (reads_bind _ _ _ _ _ _ ((v + 1) mod 2 ^ Z.of_nat (Z.to_nat k))); [apply reads_u; lia|].
  destruct (Z.ltb_spec 30 k); [lia|]. rewrite <- E. apply reads_ret.
Qed.
Lemma reads_se v : seOk v -> reads read_se (se_ v) v.
Proof.
  intros [H1 H2]. unfold se_, read_se. set (w := if 0 <? v then 2 * v - 1 else - 2 * v). rewrite <- (app_nil_r (ue_ w)).
  apply (reads_bind _ _ _ _ _ _ w); [apply reads_ue; unfold w, ueOk; destruct (Z.ltb_spec 0 v); lia|].
  replace v with (if Z.land w 1 =? 1 then (w + 1) / 2 else - (w / 2)) at 1; [apply reads_ret|].
  rewrite land1. unfold w. destruct (Z.ltb_spec 0 v).
  - replace (2 * v - 1) with (2 * (v - 1) + 1) by lia. rewrite Z.odd_add_mul_2 || rewrite Z.odd_add, Z.odd_mul. cbn [Z.odd bz xorb andb]. change (1 =? 1) with true. cbv iota. replace (2 * (v - 1) + 1 + 1) with (v * 2) by lia. apply Z.div_mul. lia.
  - rewrite Z.odd_mul. cbn [Z.odd Z.opp andb bz]. change (0 =? 1) with false. cbv iota. replace (-2 * v) with ((- v) * 2) by lia. rewrite Z.div_mul by lia. lia.
Qed.
Lemma reads_times A (B : Type) (m : reader A) (enc : B -> list bool) (val : B -> A) : forall l, (forall x, In x l -> reads m (enc x) (val x)) -> reads (times (length l) m) (concat (map enc l)) tt.
Proof.
  induction l as [|x l IH]; intros H; [apply reads_ret|]. cbn [length times map concat]. apply (reads_bind _ _ _ _ _ _ (val x)); [apply H; left; reflexivity|]. apply IH. intros y Y. apply H. right. exact Y.
Qed.

Lemma reads_opt A B C (x : option C) (enc : C -> list bool) (m : reader A) d (v : C -> A) (k : Z -> A -> reader B) l c :
  (forall y, x = Some y -> reads m (enc y) (v y)) -> reads (k (bz (isSome x)) (match x with Some y => v y | None => d end)) l c ->
  reads (f <- read_u1; a <- (if f =? 0 then ret d else m); k f a) (opt_ enc x ++ l) c.
Proof.
  intros M K. destruct x as [y|]; cbn [opt_ isSome] in *.
  - change ((true :: enc y) ++ l) with ([true] ++ (enc y ++ l)). eapply reads_bind; [apply reads_u1|]. cbn [bz]. change (1 =? 0) with false. cbv iota. eapply reads_bind; [apply M; reflexivity|exact K].
  - eapply reads_bind; [apply (reads_u1 false)|]. cbn [bz]. change (0 =? 0) with true. cbv iota. eapply reads_bind0; [apply reads_ret|exact K].
Qed.
Lemma reads_nil A (m : reader A) l a : reads m l a -> reads m (l ++ []) a.
Proof. rewrite app_nil_r. auto. Qed.
Ltac rb := first [eapply reads_bind; [first [apply reads_u1|apply reads_u8|apply reads_u; lia|apply reads_ue; assumption|apply reads_se; assumption]|cbv beta]].
Lemma reads_hrd h : hrdOk h -> reads read_hrd (hrd_ h) tt.
Proof.
  intros [H1 H2]. unfold read_hrd, hrd_. eapply reads_bind; [apply reads_ue; unfold ueOk; lia|cbv beta]. rb. rb.
  destruct (Z.ltb_spec 31 (Z.of_nat (length (hCpb h)) - 1)); [lia|]. replace (Z.to_nat (Z.of_nat (length (hCpb h)) - 1 + 1)) with (length (hCpb h)) by lia.
  eapply reads_bind.
  { apply (reads_times _ _ _ _ (fun '(r, s, c) => bz c)). intros [[r s] c] I. rewrite Forall_forall in H2. specialize (H2 _ I). cbv iota beta in H2. destruct H2. rb. rb. apply reads_u1. }
  cbv beta. rb. rb. rb. rewrite <- (app_nil_r (u_ 5 (hD h))). rb. apply reads_ret.
Qed.
Definition timingOf (v : vuiP) : Z * Z := match vTiming v with Some (n, s, _) => (toInt (n mod 2 ^ 32), toInt (s mod 2 ^ 32)) | None => (0, 0) end.
Lemma reads_vui v : vuiOk v -> reads read_vui (vui_ v) (timingOf v).
Proof.
  intros (V1 & V2 & V3 & V4 & V5 & V6). unfold read_vui, vui_.
  apply (reads_opt _ _ _ (vAspect v) _ _ 0 (fun '(idc, w, h) => if idc =? 255 then h mod 2 ^ Z.of_nat 16 else 0) (fun _ _ => _)).
  { intros [[idc w] h] E. rewrite E in V1. unfold ub in V1. eapply reads_bind; [apply reads_u8|cbv beta]. change 256 with (2 ^ 8). rewrite Z.mod_small by lia. destruct (idc =? 255); [rb; apply reads_u; lia|apply reads_ret]. }
  apply (reads_opt _ _ _ (vOverscan v) _ _ 0 bz (fun _ _ => _)). { intros y _. apply reads_u1. }
  apply (reads_opt _ _ _ (vSignal v) _ _ 0 (fun '(fmt, full, desc) => match desc with Some (p, t, m) => m mod 256 | None => 0 end) (fun _ _ => _)).
  { intros [[fmt full] desc] _. rb. rb. destruct desc as [[[p t] m]|]; cbn [opt_].
    - change (true :: u_ 8 p ++ u_ 8 t ++ u_ 8 m) with ([true] ++ u_ 8 p ++ u_ 8 t ++ u_ 8 m). rb. change (bz true =? 0) with false. cbv iota. rb. rb. apply reads_u8.
    - change [false] with ([false] ++ []). rb. change (bz false =? 0) with true. apply reads_ret. }
  apply (reads_opt _ _ _ (vLoc v) _ _ 0 (fun '(a, b) => b) (fun _ _ => _)). { intros [a b] E. rewrite E in V2. destruct V2. rb. apply reads_ue. assumption. }
  apply (reads_opt _ _ _ (vTiming v) _ _ (0, 0) (fun '(n, s, _) => (toInt (n mod 2 ^ 32), toInt (s mod 2 ^ 32))) (fun _ a => _)).
  { intros [[n s] f] _. rb. rb. rewrite <- (app_nil_r (f_ f)). rb. apply reads_ret. }
  fold (timingOf v).
  apply (reads_opt _ _ _ (vNal v) _ _ tt (fun _ => tt) (fun nal _ => _)). { intros h E. rewrite E in V4. apply reads_hrd, V4. }
  apply (reads_opt _ _ _ (vVcl v) _ _ tt (fun _ => tt) (fun vcl _ => _)). { intros h E. rewrite E in V5. apply reads_hrd, V5. }
  eapply (reads_bind _ _ _ _ _ _ (if isSome (vNal v) || isSome (vVcl v) then bz (vLow v) else 0)).
  { destruct (vNal v), (vVcl v); cbn [isSome bz orb]; try apply reads_u1. apply reads_ret. }
  cbv beta. rb.
  rewrite <- (app_nil_r (opt_ _ (vRestr v))).
  apply (reads_opt _ _ _ (vRestr v) _ _ 0 (fun '(_, (a, b, c, d, e, g)) => g) (fun _ _ => _)).
  { intros [mv [[[[[a b] c] d] e] g]] E. rewrite E in V6. destruct V6 as (? & ? & ? & ? & ? & ?). rb. rb. rb. rb. rb. rb. apply reads_ue. assumption. }
  apply reads_ret.
Qed.
Lemma reads_poc p : pocOk p -> reads read_poc (poc_ p) tt.
Proof.
  unfold read_poc. assert (C : ueOk 0 /\ ueOk 1 /\ ueOk 2) by (unfold ueOk; lia). destruct C as (C0 & C1 & C2). destruct p as [l|z a b offs|]; cbn [pocOk poc_].
  - intros H. rb. change (0 =? 0) with true. cbv iota. rewrite <- (app_nil_r (ue_ l)). rb. apply reads_ret.
  - intros (H1 & H2 & H3 & H4). rb. change (1 =? 0) with false. change (1 =? 1) with true. cbv iota. rb. rb. rb. eapply reads_bind; [apply reads_ue; unfold ueOk; lia|cbv beta].
    destruct (Z.ltb_spec 256 (Z.of_nat (length offs))); [lia|]. rewrite Nat2Z.id. apply (reads_times _ _ _ _ (fun x => x)). intros x I. apply reads_se. rewrite Forall_forall in H3. apply H3, I.
  - intros _. rewrite <- (app_nil_r (ue_ 2)). rb. change (2 =? 0) with false. change (2 =? 1) with false. apply reads_ret.
Qed.
Lemma reads_high g : highOk g -> flatScaling g -> reads read_high (high_ g) tt.
Proof.
  intros (H1 & H2 & H3) F. unfold read_high, high_. eapply reads_bind; [apply reads_ue; unfold ueOk; lia|cbv beta].
  eapply (reads_bind _ _ _ _ _ _ (if gChroma g =? 3 then bz (gPlane g) else 0)). { destruct (gChroma g =? 3); [apply reads_u1|apply reads_ret]. }
  cbv beta. rb. rb. rb. unfold flatScaling in F. destruct (gScaling g) as [ls|]; cbn [opt_].
  - match goal with |- reads _ (true :: ?x) _ => change (true :: x) with ([true] ++ x) end. rb. change (bz true =? 0) with false. cbv iota. destruct F as [FL FF]. rewrite <- FL.
    apply (reads_times _ _ _ _ (fun _ => tt)). intros x I. rewrite Forall_forall in FF. rewrite (FF x I). cbn [opt_]. change [false] with ([false] ++ []). rb. change (bz false =? 0) with true. apply reads_ret.
  - change [false] with ([false] ++ []). rb. change (bz false =? 0) with true. apply reads_ret.
Qed.
Definition yields {A} (m : reader A) (l : list bool) (a : A) : Prop :=
  forall b t, bok b -> Forall isByte (bbuf b) -> rest b = l ++ t -> exists b', m b = Got (a, b').
Lemma yields_bind A B (m : reader A) (k : A -> reader B) l1 l2 a c : reads m l1 a -> yields (k a) l2 c -> yields (bind m k) (l1 ++ l2) c.
Proof.
  intros M K b t O HB R. rewrite <- app_assoc in R. destruct (M b _ O HB R) as (b1 & E1 & O1 & B1 & R1 & _). rewrite <- B1 in HB. destruct (K b1 t O1 HB R1) as (b2 & E2). exists b2. unfold bind. rewrite E1. exact E2.
Qed.
Lemma u1_total b : bok b -> exists x b', read_u1 b = Got (x, b') /\ bok b'.
Proof.
  intros O. pose proof (safe_u1 b O) as S. unfold read_u1 in *. destruct (bs_eof b) eqn:E; [eexists; eexists; split; [reflexivity|apply S]|]. unfold bs_eof in E. apply Z.leb_gt in E.
  rewrite load_in in * by (destruct O; lia). eexists. eexists. split; [reflexivity|apply S].
Qed.
Lemma align_total : forall n b, bok b -> exists b', align n b = Got (tt, b').
Proof.
  induction n as [|n IH]; intros b O; cbn [align]; [eexists; reflexivity|]. destruct (bleft b =? 8); [eexists; reflexivity|]. destruct (u1_total b O) as (x & b1 & E & O1). unfold bind. rewrite E. apply IH, O1.
Qed.
Lemma yields_trailing A (a : A) : yields (_x <- read_trailing; ret a) [] a.
Proof.
  intros b t O HB R. unfold bind, read_trailing. destruct (u1_total b O) as (x & b1 & E & O1). destruct (align_total 8 b1 O1) as (b2 & E2). unfold bind. rewrite E, E2. eexists. reflexivity.
Qed.
Lemma reads_u1s : forall l, reads (times (length l) read_u1) l tt.
Proof. intros l. replace l with (concat (map (fun x => [x]) l)) at 2; [apply (reads_times _ _ _ _ bz); intros x _; apply reads_u1|]. induction l as [|x l IH]; [reflexivity|]. cbn [map concat app]. rewrite IH. reflexivity. Qed.

Definition valOf (p : spsP) : sps :=
  let '(l, r, t, b) := match pCrop p with Some c => c | None => (0, 0, 0, 0) end in
  let tm := match pVui p with Some v => timingOf v | None => (0, 0) end in
  mkSps (pWidth p) (pHeight p) (bz (pFrameMbs p)) (bz (isSome (pCrop p))) l r t b (fst tm) (snd tm).
Definition agree (p : spsP) : Prop := isHigh (pProfile p) = hasHigh p /\ (hasHigh p = true -> flatScaling (pHigh p)).
Ltac yb := first [eapply yields_bind; [first [apply reads_u1|apply reads_u8|apply reads_u; lia|apply reads_ue; unfold ueOk in *; lia|apply reads_se; assumption]|cbv beta]].
Lemma yields_sps p : spsOk p -> agree p -> yields read_sps (sps_ p) (valOf p).
Proof.
  intros (S1 & S2 & S3 & S4 & S5 & S6 & S7 & S8 & S9 & S10) (G1 & G2). unfold read_sps, sps_. yb. change 256 with (2 ^ 8). rewrite Z.mod_small by exact S1. rewrite G1.
  change (u_ 8 (pFlags p)) with ([Z.testbit (pFlags p) 7; Z.testbit (pFlags p) 6; Z.testbit (pFlags p) 5; Z.testbit (pFlags p) 4; Z.testbit (pFlags p) 3; Z.testbit (pFlags p) 2] ++ u_ 2 (pFlags p)).
  rewrite <- app_assoc. eapply yields_bind; [apply (reads_u1s [_; _; _; _; _; _])|cbv beta]. yb. yb. yb.
  eapply (yields_bind _ _ _ _ _ _ tt). { destruct (hasHigh p); [apply reads_high; [exact S3|apply G2; reflexivity]|apply reads_ret]. }
  cbv beta. yb. eapply yields_bind; [apply reads_poc, S5|cbv beta]. yb. yb. yb. yb. yb.
  eapply (yields_bind _ _ _ _ _ _ (if pFrameMbs p then 0 else bz (pMbaff p))). { destruct (pFrameMbs p); [apply reads_ret|apply reads_u1]. }
  cbv beta. yb.
  set (c := match pCrop p with Some c => c | None => (0, 0, 0, 0) end).
  assert (KV : forall l, l = opt_ vui_ (pVui p) -> yields (vui <- read_u1; timing <- (if vui =? 0 then ret (0, 0) else read_vui);
       _x <- read_trailing; let '(l, r, t, b) := c in ret (mkSps (pWidth p) (pHeight p) (bz (pFrameMbs p)) (bz (isSome (pCrop p))) l r t b (fst timing) (snd timing))) l (valOf p)).
  { intros l ->. unfold valOf. fold c. destruct c as [[[cl cr] ct] cb]. destruct (pVui p) as [v|]; cbn [opt_].
    - change (true :: vui_ v) with ([true] ++ vui_ v). yb. change (bz true =? 0) with false. cbv iota. rewrite <- (app_nil_r (vui_ v)). eapply yields_bind; [apply reads_vui, S10|cbv beta]. apply yields_trailing.
    - change [false] with ([false] ++ []). yb. change (bz false =? 0) with true. cbv iota. change (@nil bool) with (@nil bool ++ []). eapply yields_bind; [apply reads_ret|cbv beta]. apply yields_trailing. }
  unfold c in KV. clear c. destruct (pCrop p) as [[[[l r] t] b]|]; cbn [opt_ isSome] in *.
  - match goal with |- yields _ ((true :: ?x) ++ ?y) _ => change ((true :: x) ++ y) with ([true] ++ (x ++ y)) end. yb. change (bz true =? 0) with false. cbv iota.
    eapply (yields_bind _ _ _ _ _ _ (l, r, t, b)); [|cbv beta; apply KV; reflexivity]. rewrite <- (app_nil_r (ue_ b)).
    eapply reads_bind; [apply reads_ue; unfold ueOk; lia|cbv beta]. eapply reads_bind; [apply reads_ue; unfold ueOk; lia|cbv beta]. eapply reads_bind; [apply reads_ue; unfold ueOk; lia|cbv beta]. eapply reads_bind; [apply reads_ue; unfold ueOk; lia|cbv beta]. apply reads_ret.
  - yb. change (bz false =? 0) with true. cbv iota. match goal with |- yields _ ?y _ => change y with ([] ++ y) end. eapply (yields_bind _ _ _ _ _ _ (0, 0, 0, 0)); [apply reads_ret|]. cbv beta. apply KV. reflexivity.
Qed.

(** *** Packing *)
Lemma byteOf8 b7 b6 b5 b4 b3 b2 b1 b0 : let x := byteOf [b7; b6; b5; b4; b3; b2; b1; b0] in u_ 8 x = [b7; b6; b5; b4; b3; b2; b1; b0] /\ isByte x.
Proof. destruct b7, b6, b5, b4, b3, b2, b1, b0; (split; [reflexivity|unfold isByte; cbn; lia]). Qed.
Lemma pack_spec : forall n l, length l = (8 * n)%nat -> bitsOf (pack n l) = l /\ Forall isByte (pack n l).
Proof.
  induction n as [|n IH]; intros l H; [destruct l; [split; [reflexivity|constructor]|discriminate]|]. replace (8 * S n)%nat with (S (S (S (S (S (S (S (S (8 * n)))))))) ) in H by lia.
  do 8 (destruct l as [|? l]; [discriminate|]). cbn [pack firstn skipn]. cbn [length] in H.
  destruct (IH l) as [A B]; [lia|]. match goal with |- context [byteOf [?a; ?b; ?c; ?d; ?e; ?f; ?g; ?h]] => destruct (byteOf8 a b c d e f g h) as [C D] end.
  split; [|constructor; assumption]. unfold bitsOf in *. cbn [map concat]. rewrite A, C. reflexivity.
Qed.
Lemma trailing_len l : exists n, length (trailing l) = (8 * n)%nat.
Proof.
  unfold trailing. rewrite !app_length, repeat_length. cbn [length]. set (m := (length l + 1)%nat). replace (length l + (1 + (8 - m mod 8) mod 8))%nat with (m + (8 - m mod 8) mod 8)%nat by (unfold m; lia).
  pose proof (Nat.div_mod m 8 ltac:(lia)). pose proof (Nat.mod_upper_bound m 8 ltac:(lia)). destruct (Nat.eq_dec (m mod 8) 0) as [E|E].
  - exists (m / 8)%nat. rewrite E. change ((8 - 0) mod 8)%nat with 0%nat. lia.
  - exists (m / 8 + 1)%nat. rewrite (Nat.mod_small (8 - m mod 8)) by lia. lia.
Qed.
Lemma bits_last_zero : forall buf, last buf 1 = 0 -> exists l, bitsOf buf = l ++ repeat false 8.
Proof.
  intros buf. destruct buf as [|x buf _] using rev_ind; [discriminate|]. rewrite last_last. intros ->. exists (bitsOf buf). unfold bitsOf. rewrite map_app, concat_app. reflexivity.
Qed.
Lemma last_repeat_false l k : (k < 8)%nat -> forall l', l ++ [true] ++ repeat false k <> l' ++ repeat false 8.
Proof.
  intros K l' E. apply (f_equal (@rev bool)) in E. rewrite !rev_app_distr in E.
  assert (RR : forall n, rev (repeat false n) = repeat false n). { induction n as [|n IH]; [reflexivity|]. cbn [repeat rev]. rewrite IH. clear IH. induction n as [|n IH]; [reflexivity|]. cbn [repeat app]. rewrite IH. reflexivity. }
  rewrite !RR in E. cbn [rev app] in E. do 8 (destruct k as [|k]; [cbn in E; discriminate|]). lia.
Qed.
Theorem rbsp_spec p : bitsOf (rbsp_ p) = trailing (sps_ p) /\ Forall isByte (rbsp_ p) /\ zst 0 (rbsp_ p) = 0%nat.
Proof.
  unfold rbsp_. destruct (trailing_len (sps_ p)) as (n & E). assert (EN : (length (trailing (sps_ p)) / 8)%nat = n) by (rewrite E, Nat.mul_comm; apply Nat.div_mul; lia). rewrite EN.
  destruct (pack_spec n _ E) as [A B]. split; [exact A|]. split; [exact B|].
  generalize dependent (pack n (trailing (sps_ p))). intros buf0. destruct buf0 as [|x buf _] using rev_ind; intros A B; [reflexivity|]. apply zst_last. intros ->.
  destruct (bits_last_zero (buf ++ [0])) as (l & L); [apply last_last|]. rewrite L in A. unfold trailing in A. symmetry in A. revert A. apply last_repeat_false. apply Nat.mod_upper_bound. lia.
Qed.
Theorem parse_sps p h : spsOk p -> agree p -> forall f, updateSPSInfo (nalUnit h (rbsp_ p)) f = updateInfo (valOf p) f.
Proof.
  intros S G f. destruct (rbsp_spec p) as (A & B & C). unfold updateSPSInfo. rewrite nal_roundtrip by (try assumption; rewrite C; discriminate).
  destruct (yields_sps p S G (bs_new (rbsp_ p)) ([true] ++ repeat false ((8 - (length (sps_ p) + 1) mod 8) mod 8))) as (b & E).
  - split; cbn; lia.
  - exact B.
  - unfold rest, pos, bs_new. cbn [bp bleft bbuf]. exact A.
  - rewrite E. reflexivity.
Qed.

(** The reader after [n] bits. *)
Lemma bsAt_unique b : bok b -> b = mkBs (bbuf b) (Z.of_nat (pos b) / 8) (8 - Z.of_nat (pos b) mod 8).
Proof.
  intros [A B]. destruct b as [buf p l]. unfold pos. cbn [bp bleft bbuf] in *.
  assert (E : Z.of_nat (8 * Z.to_nat p + (8 - Z.to_nat l)) = (8 - l) + p * 8) by lia. rewrite E. rewrite Z.div_add, Z.mod_add by lia. rewrite Z.div_small, Z.mod_small by lia. f_equal; lia.
Qed.
Definition after (buf : bytes) (pre : list bool) : bs := mkBs buf (Z.of_nat (length pre) / 8) (8 - Z.of_nat (length pre) mod 8).
Lemma reads_at A (m : reader A) buf pre l t a : reads m l a -> Forall isByte buf -> bitsOf buf = pre ++ l ++ t ->
  m (after buf pre) = Got (a, after buf (pre ++ l)).
Proof.
  intros M HB E. unfold after. set (n := Z.of_nat (length pre)). pose proof (Z.div_mod n 8 ltac:(lia)). pose proof (Z.mod_pos_bound n 8 ltac:(lia)).
  set (b := mkBs buf (n / 8) (8 - n mod 8)). assert (O : bok b). { split; cbn [b bp bleft]; [apply Z.div_pos; lia|lia]. }
  assert (P : pos b = length pre). { unfold pos, b. cbn [bp bleft]. assert (0 <= n / 8) by (apply Z.div_pos; lia). lia. }
  destruct (M b t O HB) as (b' & E1 & O1 & B1 & R1 & P1). { unfold rest. rewrite P. cbn [b bbuf]. rewrite E. rewrite skipn_app, skipn_all, Nat.sub_diag. reflexivity. }
  rewrite E1. f_equal. f_equal. rewrite (bsAt_unique b' O1). rewrite B1, P1, P. cbn [b bbuf]. rewrite app_length. reflexivity.
Qed.

(** *** The writer *)
Lemma table_log : forallb (fun i => nth i len_table 0 =? Z.log2 (Z.of_nat i) + 1) (seq 1 255) = true.
Proof. vm_compute. reflexivity. Qed.
Lemma table_at v : 1 <= v < 256 -> nth (Z.to_nat v) len_table 0 = Z.log2 v + 1.
Proof.
  intros H. pose proof table_log as T. rewrite forallb_forall in T. specialize (T (Z.to_nat v)). rewrite in_seq in T. specialize (T ltac:(lia)). apply Z.eqb_eq in T. rewrite Z2Nat.id in T by lia. exact T.
Qed.
Lemma write_u_ok : forall n v, (n <= 32)%nat -> write_u n v = Some (u_ n v).
Proof.
  induction n as [|n IH]; intros v H; [reflexivity|]. cbn [write_u u_]. destruct (Z.leb_spec 32 (Z.of_nat n)); [lia|]. rewrite IH by lia. rewrite <- Z.bit0_odd, Z.shiftr_spec by lia. reflexivity.
Qed.
Lemma u_high : forall j k v, 0 <= v < 2 ^ Z.of_nat k -> u_ (j + k) v = repeat false j ++ u_ k v.
Proof.
  induction j as [|j IH]; intros k v H; [reflexivity|]. cbn [Nat.add u_ repeat app]. rewrite IH by exact H. f_equal.
  destruct (Z.eq_dec v 0) as [->|]; [apply Z.bits_0|]. apply Z.bits_above_log2; [lia|]. apply Z.log2_lt_pow2; [lia|]. apply Z.lt_le_trans with (2 ^ Z.of_nat k); [lia|]. apply Z.pow_le_mono_r; lia.
Qed.
Definition lenOf (v : Z) : Z :=
  if 2 ^ 24 <=? v then 24 + nth (Z.to_nat (Z.shiftr v 24)) len_table 0
  else if 2 ^ 16 <=? v then 16 + nth (Z.to_nat (Z.shiftr v 16)) len_table 0
  else if 2 ^ 8 <=? v then 8 + nth (Z.to_nat (Z.shiftr v 8)) len_table 0
  else nth (Z.to_nat v) len_table 0.
Lemma lenOf_log v : 1 <= v < 2 ^ 32 -> lenOf v = Z.log2 v + 1.
Proof.
  intros H. assert (SH : forall k, 0 <= k -> 2 ^ k <= v -> v < 2 ^ (k + 8) -> k + nth (Z.to_nat (Z.shiftr v k)) len_table 0 = Z.log2 v + 1).
  { intros k K1 K2 K3. assert (0 < 2 ^ k) by (apply Z.pow_pos_nonneg; lia). rewrite table_at.
    - rewrite Z.log2_shiftr by lia. assert (k <= Z.log2 v) by (apply Z.log2_le_pow2; lia). lia.
    - rewrite Z.shiftr_div_pow2 by lia. rewrite Z.pow_add_r in K3 by lia. change (2 ^ 8) with 256 in K3. split; [apply Z.div_le_lower_bound; lia|apply Z.div_lt_upper_bound; lia]. }
  unfold lenOf. destruct (Z.leb_spec (2 ^ 24) v); [apply SH; lia|]. destruct (Z.leb_spec (2 ^ 16) v); [apply SH; lia|]. destruct (Z.leb_spec (2 ^ 8) v); [apply SH; lia|]. apply table_at. lia.
Qed.
Theorem write_ue_spec v : 0 <= v < 2 ^ 32 - 1 -> write_ue v = if v <? 65535 then Some (ue_ v) else None.
Proof.
  intros H. unfold write_ue. destruct (Z.eqb_spec v 0) as [->|N]; [reflexivity|]. rewrite Z.mod_small by lia. cbv zeta. fold (lenOf (v + 1)). rewrite lenOf_log by lia.
  assert (L0 : 0 <= Z.log2 (v + 1)) by apply Z.log2_nonneg. destruct (Z.ltb_spec v 65535).
  - assert (L1 : Z.log2 (v + 1) < 16) by (apply Z.log2_lt_pow2; lia). rewrite write_u_ok by lia. f_equal. unfold ue_.
    assert (K1 : 2 ^ Z.log2 (v + 1) <= v + 1 < 2 ^ Z.succ (Z.log2 (v + 1))) by (apply Z.log2_spec; lia).
    replace (Z.to_nat (2 * (Z.log2 (v + 1) + 1) - 1)) with (Z.to_nat (Z.log2 (v + 1)) + S (Z.to_nat (Z.log2 (v + 1))))%nat by lia.
    rewrite u_high; [reflexivity|]. replace (Z.of_nat (S (Z.to_nat (Z.log2 (v + 1))))) with (Z.succ (Z.log2 (v + 1))) by lia. lia.
  - assert (L1 : 16 <= Z.log2 (v + 1)) by (apply Z.log2_le_pow2; lia). replace (Z.to_nat (2 * (Z.log2 (v + 1) + 1) - 1)) with (S (Z.to_nat (2 * Z.log2 (v + 1)))) by lia.
    cbn [write_u]. destruct (Z.leb_spec 32 (Z.of_nat (Z.to_nat (2 * Z.log2 (v + 1))))); [reflexivity|lia].
Qed.
