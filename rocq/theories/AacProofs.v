(** Proofs for C102. *)
From Coq Require Import Ascii String ZArith List Bool.
From Verif Require Import Base Bytes JsonModel SdpModel AnnModel NalModel NalSpec NalProps AacModel AacSpec.
Import ListNotations.
Notation length := List.length.
Local Open Scope list_scope.
Local Open Scope Z_scope.

Lemma digit_ok up d : 0 <= d < 16 ->
  hexValue (nth (Z.to_nat d) (digits up) NUL) = Some d /\ Ascii.eqb (nth (Z.to_nat d) (digits up) NUL) NUL = false.
Proof.
  intros D. assert (X: In d [0;1;2;3;4;5;6;7;8;9;10;11;12;13;14;15]) by (cbn; lia).
  cbn [In] in X. repeat (destruct X as [<-|X]; [destruct up; split; reflexivity|]). destruct X.
Qed.
Lemma hex2_read up b t l : 0 <= b < 256 -> readHex t = Some l -> readHex (hex2 up b ++ t) = Some (b :: l).
Proof.
  intros B R. assert (H1: 0 <= b / 16 < 16) by (split; [apply Z.div_pos; lia|apply Z.div_lt_upper_bound; lia]).
  assert (H2: 0 <= b mod 16 < 16) by (apply Z.mod_pos_bound; lia).
  destruct (digit_ok up _ H1) as [E1 _]. destruct (digit_ok up _ H2) as [E2 _].
  unfold hex2. cbn [app]. cbn [readHex]. rewrite E1, E2, R. f_equal. f_equal. pose proof (Z.div_mod b 16). lia.
Qed.
Lemma cstring_app t m : (forall c, In c t -> Ascii.eqb c NUL = false) -> cstring ((t ++ [NUL]) ++ m) = Some t.
Proof.
  induction t as [|c t IH]; intros H; [reflexivity|]. cbn [app cstring]. rewrite (H c (or_introl eq_refl)).
  rewrite IH; [reflexivity|]. intros x I. apply H. right. exact I.
Qed.
Lemma hex2_nonul up b c : 0 <= b < 256 -> In c (hex2 up b) -> Ascii.eqb c NUL = false.
Proof.
  intros B. assert (H1: 0 <= b / 16 < 16) by (split; [apply Z.div_pos; lia|apply Z.div_lt_upper_bound; lia]).
  assert (H2: 0 <= b mod 16 < 16) by (apply Z.mod_pos_bound; lia).
  destruct (digit_ok up _ H1) as [_ E1]. destruct (digit_ok up _ H2) as [_ E2].
  unfold hex2. intros [<-|[<-|[]]]; assumption.
Qed.
Lemma config_bytes f e : updateConfigString f = Some e -> exists a b, e = [a; b] /\ 0 <= a < 256 /\ 0 <= b < 256.
Proof.
  unfold updateConfigString. destruct (len f <? 7); [discriminate|]. destruct (negb _); [discriminate|].
  intros E. injection E as <-. do 2 eexists. split; [reflexivity|]. unfold extradata1, extradata2. split; apply Z.mod_pos_bound; lia.
Qed.
Lemma printed_len e : length (printed e ++ [NUL]) = 5%nat.
Proof. reflexivity. Qed.
Lemma printed_read f e : updateConfigString f = Some e -> readHex (printed e) = Some e /\ forall c, In c (printed e) -> Ascii.eqb c NUL = false.
Proof.
  intros U. destruct (config_bytes f e U) as (a & b & -> & A & B). unfold printed. cbn [nth]. split.
  - apply hex2_read; [exact A|]. rewrite <- (app_nil_r (hex2 false b)). apply hex2_read; [exact B|reflexivity].
  - intros c I. apply in_app_or in I. destruct I as [I|I]; [exact (hex2_nonul true a c A I)|exact (hex2_nonul false b c B I)].
Qed.
Lemma refused f : noHeader f <-> updateConfigString f = None.
Proof.
  unfold noHeader, updateConfigString, len. destruct (Z.of_nat (length f) <? 7) eqn:L.
  - split; [reflexivity|]. left. apply Z.ltb_lt in L. exact L.
  - apply Z.ltb_ge in L. destruct (Z.eqb_spec (nth 0 f 0) 255) as [A|A]; destruct (Z.eqb_spec (nth 1 f 0) 241) as [B|B]; cbn [andb negb].
    + split; [intros [X|[X|X]]; [lia|contradiction|contradiction]|discriminate].
    + split; [reflexivity|intros _; right; right; exact B].
    + split; [reflexivity|intros _; right; left; exact A].
    + split; [reflexivity|intros _; right; left; exact A].
Qed.
Lemma deliver_none f m : noHeader f -> deliver f m = Some m.
Proof. intros H. apply refused in H. unfold deliver. rewrite H. reflexivity. Qed.
Lemma deliverAll_none fs m : Forall noHeader fs -> deliverAll fs m = Some m.
Proof. induction 1 as [|f fs H _ IH]; [reflexivity|]. cbn [deliverAll]. rewrite (deliver_none f m H). exact IH. Qed.
Lemma deliverAll_app fs gs m : deliverAll (fs ++ gs) m = match deliverAll fs m with Some m' => deliverAll gs m' | None => None end.
Proof.
  revert m. induction fs as [|f fs IH]; intros m; [reflexivity|]. cbn [app deliverAll]. destruct (deliver f m); [apply IH|reflexivity].
Qed.
Lemma deliver_len f m m' : deliver f m = Some m' -> length m' = length m.
Proof.
  unfold deliver. destruct (updateConfigString f) as [e|]; [|intros E; injection E as <-; reflexivity].
  unfold store. rewrite printed_len. destruct (5 <=? length m)%nat eqn:L; [|discriminate]. intros E. apply Nat.leb_le in L.
  assert (X: m' = (printed e ++ [NUL]) ++ skipn 5 m) by congruence. rewrite X, app_length, printed_len, skipn_length. lia.
Qed.
Lemma deliver_enough f m : (5 <= length m)%nat -> exists m', deliver f m = Some m' /\ length m' = length m.
Proof.
  intros L. assert (E: exists m', deliver f m = Some m').
  { unfold deliver. destruct (updateConfigString f); [|eauto]. unfold store. rewrite printed_len. apply Nat.leb_le in L. rewrite L. eauto. }
  destruct E as [m' E]. exists m'. split; [exact E|eapply deliver_len; eauto].
Qed.
Lemma deliverAll_enough fs : forall m, (5 <= length m)%nat -> exists m', deliverAll fs m = Some m' /\ length m' = length m.
Proof.
  induction fs as [|f fs IH]; intros m L; [eexists; split; reflexivity|]. destruct (deliver_enough f m L) as (m1 & E & L1).
  destruct (IH m1) as (m2 & E2 & L2); [lia|]. exists m2. cbn [deliverAll]. rewrite E. split; [exact E2|lia].
Qed.
Lemma deliver_short f e m : updateConfigString f = Some e -> (length m < 5)%nat -> deliver f m = None.
Proof. intros U L. unfold deliver. rewrite U. unfold store. rewrite printed_len. apply Nat.leb_gt in L. rewrite L. reflexivity. Qed.
Lemma deliverAll_short fs : forall m f e, (length m < 5)%nat -> In f fs -> updateConfigString f = Some e -> deliverAll fs m = None.
Proof.
  induction fs as [|g fs IH]; intros m f e L I U; [destruct I|]. cbn [deliverAll]. destruct (deliver g m) as [m1|] eqn:D; [|reflexivity].
  destruct I as [<-|I]; [rewrite (deliver_short _ _ _ U L) in D; discriminate|]. eapply IH; eauto. rewrite (deliver_len _ _ _ D). exact L.
Qed.
(** The last frame with a header is what the memory tells of. *)
Lemma deliver_last fs f gs e m : (5 <= length m)%nat -> updateConfigString f = Some e -> Forall noHeader gs ->
  exists m', deliverAll (fs ++ f :: gs) m = Some m' /\ cstring m' = Some (printed e).
Proof.
  intros L U N. destruct (deliverAll_enough fs m L) as (m1 & E1 & L1). rewrite deliverAll_app, E1. cbn [deliverAll].
  unfold deliver. rewrite U. unfold store. rewrite printed_len. assert (L5: (5 <=? length m1)%nat = true) by (apply Nat.leb_le; lia).
  rewrite L5. rewrite (deliverAll_none _ _ N). eexists. split; [reflexivity|]. apply cstring_app. apply (printed_read f e U).
Qed.
Lemma first_answer pt m fs : getAuxSDPLine pt m fs newSubsession =
  match deliverAll fs m with
  | None => (Wild, newSubsession)
  | Some m' => match cstring m' with
               | None => (Wild, newSubsession)
               | Some c => (Line (Some (auxLine pt c)), mkSub (Some (auxLine pt c)) false true)
               end
  end.
Proof. unfold getAuxSDPLine, newSubsession. cbn [aux dummy done]. destruct (deliverAll fs m) as [m'|]; [|reflexivity]. unfold check. cbn [aux dummy]. destruct (cstring m'); reflexivity. Qed.
Lemma later_answers pt l rs : answers pt rs (mkSub (Some l) false true) = repeat (Line (Some l)) (length rs).
Proof. induction rs as [|[m fs] rs IH]; [reflexivity|]. cbn [answers length repeat]. unfold getAuxSDPLine. cbn [aux]. rewrite IH. reflexivity. Qed.
Lemma never_waits pt rs : ~ In Waits (answers pt rs newSubsession).
Proof.
  induction rs as [|[m fs] rs IH]; [intros []|]. cbn [answers]. rewrite first_answer.
  destruct (deliverAll fs m) as [m'|]; [destruct (cstring m') as [c|]|]; (intros [E|I]; [discriminate|]); [|exact (IH I)..].
  rewrite later_answers in I. apply repeat_spec in I. discriminate.
Qed.
Lemma cstring_none m : (forall c, In c m -> c <> NUL) -> cstring m = None.
Proof.
  induction m as [|c m IH]; intros H; [reflexivity|]. cbn [cstring]. destruct (Ascii.eqb_spec c NUL) as [E|_]; [exfalso; exact (H c (or_introl eq_refl) E)|].
  rewrite IH; [reflexivity|]. intros x I. apply H. right. exact I.
Qed.
