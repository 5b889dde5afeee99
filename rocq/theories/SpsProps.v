(** C35: H.264 resolution is recovered from the sequence parameter set. *)
From Verif Require Import Base Bytes SpsModel SpsSpec SpsProofs.
Local Open Scope list_scope.
Local Open Scope Z_scope.

(** Whatever the bytes of the unit, nothing outside it (nor outside the payload extracted from it) is read, and the
    payload is no longer than the unit. *)
Theorem C35_reads_inside : forall nal f, updateSPSInfo nal f <> Oob.
Proof. exact updateSPSInfo_inside. Qed.
Theorem C35_payload_fits : forall nal, exists r, nal_to_rbsp nal (len nal) = Got r /\ forall l, r = Some l -> len l <= len nal.
Proof.
  intros nal. unfold nal_to_rbsp. destruct (nalLoop_safe (length nal) nal (len nal) 1 0 0 [] ltac:(lia)) as (r & E). exists r. split; [exact E|]. intros l ->.
  apply (nalLoop_short _ _ _ _ _ _ _ _ E); [reflexivity|apply len_nonneg].
Qed.
(** Removing emulation prevention inverts its insertion, for every payload that ends as the standard requires: in a
    byte other than zero, possibly followed by zero words. *)
Theorem C35_emulation : forall header l c k, Forall isByte l -> isByte c -> c <> 0 ->
  let payload := l ++ [c] ++ repeat 0 (2 * k) in nal_to_rbsp (nalUnit header payload) (len (nalUnit header payload)) = Got (Some payload).
Proof.
  intros header l c k HL HC NC payload. apply nal_roundtrip.
  - unfold payload. rewrite !Forall_app. split; [exact HL|]. split; [constructor; [exact HC|constructor]|]. apply Forall_forall. intros x X. apply repeat_spec in X. subst x. unfold isByte. lia.
  - unfold payload. rewrite app_assoc, zst_app, zst_last by exact NC. apply zst_pairs; lia.
Qed.
(** Conversely everything accepted is the encapsulation of the payload returned, a missing final 3 tolerated. *)
Theorem C35_emulation_accepts : forall header n l, nal_to_rbsp (header :: n) (len (header :: n)) = Got (Some l) ->
  header :: n = nalUnit header l \/ (header :: n) ++ [3] = nalUnit header l.
Proof.
  intros header n l H. unfold nal_to_rbsp in H. apply (nalLoop_accepts (length (header :: n)) n 0 [header]) in H; [|lia|cbn [length]; lia].
  destruct H as (r & E & H). cbn [rev app] in E. subst r. unfold nalUnit. destruct H as [->|H]; [left; reflexivity|right]. cbn [app]. rewrite H. reflexivity.
Qed.
Theorem C35_emulation_single_zero_refuted : exists l, nal_to_rbsp (nalUnit 103 l) (len (nalUnit 103 l)) <> Got (Some l).
Proof. exists [5; 0]. vm_compute. discriminate. Qed.

(** Exp-Golomb codes and fixed-length fields are read back, at any bit position of any buffer, with anything before
    and after. [after buf pre] is the reader when the bits [pre] have been read. *)
Theorem C35_ue : forall buf pre v t, Forall isByte buf -> 0 <= v <= 2 ^ 31 - 2 -> bitsOf buf = pre ++ ue_ v ++ t ->
  read_ue (after buf pre) = Got (v, after buf (pre ++ ue_ v)).
Proof. intros buf pre v t HB V E. apply (reads_at _ _ _ _ _ t); [apply reads_ue, V|exact HB|exact E]. Qed.
Theorem C35_se : forall buf pre v t, Forall isByte buf -> - (2 ^ 30 - 1) <= v <= 2 ^ 30 - 1 -> bitsOf buf = pre ++ se_ v ++ t ->
  read_se (after buf pre) = Got (v, after buf (pre ++ se_ v)).
Proof. intros buf pre v t HB V E. apply (reads_at _ _ _ _ _ t); [apply reads_se, V|exact HB|exact E]. Qed.
Theorem C35_u : forall n buf pre v t, (n <= 32)%nat -> Forall isByte buf -> 0 <= v < 2 ^ Z.of_nat n -> bitsOf buf = pre ++ u_ n v ++ t ->
  read_u n (after buf pre) = Got (v, after buf (pre ++ u_ n v)).
Proof. intros n buf pre v t N HB V E. apply (reads_at _ _ _ _ _ t); [|exact HB|exact E]. pose proof (reads_u n v N) as R. rewrite Z.mod_small in R by exact V. exact R. Qed.
(** The writer produces these codes up to 65534; from 65535 on it shifts a 32-bit value by 32 or more. *)
Theorem C35_write_ue_partial : forall v, 0 <= v < 2 ^ 32 - 1 -> write_ue v = if v <? 65535 then Some (ue_ v) else None.
Proof. exact write_ue_spec. Qed.
Theorem C35_write_se_partial : forall v, - 32767 <= v <= 32767 -> write_se v = Some (se_ v).
Proof.
  intros v H. unfold write_se, se_. destruct (Z.leb_spec v 0), (Z.ltb_spec 0 v); try lia; rewrite write_ue_spec by lia.
  - destruct (Z.ltb_spec (- v * 2) 65535); [|lia]. do 2 f_equal. lia.
  - destruct (Z.ltb_spec (v * 2 - 1) 65535); [|lia]. do 2 f_equal. lia.
Qed.
Theorem C35_long_code_refuted : exists buf, Forall isByte buf /\ bitsOf buf = ue_ (2 ^ 31 - 1) ++ [false] /\ read_ue (bs_new buf) = Ovf.
Proof. exists [0; 0; 0; 1; 0; 0; 0; 0]. split; [repeat constructor; unfold isByte; lia|]. split; vm_compute; reflexivity. Qed.

(** The picture size. The profiles on which the code and the standard disagree are excluded, so are transmitted
    scaling lists; and a direction that is cropped must be cropped in units of two samples. *)
Definition otherProfiles : list Z := [44; 83; 86; 118; 128; 134; 135; 138; 139; 144; 244].
Definition known (p : spsP) : Prop := ~ In (pProfile p) otherProfiles /\ (hasHigh p = true -> flatScaling (pHigh p)).
Lemma known_agree p : known p -> agree p.
Proof.
  intros [N F]. split; [|exact F]. unfold isHigh, hasHigh, highProfiles, otherProfiles in *. cbn [existsb In] in *.
  repeat match goal with |- context [pProfile p =? ?n] => destruct (Z.eqb_spec (pProfile p) n) as [E|]; [rewrite E in *; first [reflexivity|exfalso; apply N; auto 20]|] end; reflexivity.
Qed.
Lemma reported p h f : spsOk p -> known p -> 0 < 16 * (pWidth p + 1) - 2 * cropX p -> 0 < 16 * (pHeight p + 1) * fields p - 2 * cropY p ->
  exists f', updateSPSInfo (nalUnit h (rbsp_ p)) f = Got f' /\ fWidth f' = 16 * (pWidth p + 1) - 2 * cropX p /\ fHeight f' = 16 * (pHeight p + 1) * fields p - 2 * cropY p /\
  fRate f' = match pVui p with Some v => match vTiming v with Some (n, s, _) => Some (s / (2 * n)) | None => fRate f end | None => fRate f end.
Proof.
  intros S K W H. rewrite (parse_sps p h S (known_agree p K)). destruct S as (_ & _ & _ & _ & _ & _ & S7 & S8 & S9 & S10).
  set (s := valOf p). assert (T : exists u sc, spUnits s = u /\ spScale s = sc /\ match pVui p with Some v => match vTiming v with Some (n, s, _) => u = n /\ sc = s /\ 0 < n < 2 ^ 30 /\ 0 <= s < 2 ^ 31 | None => u = 0 end | None => u = 0 end).
  { unfold s, valOf. destruct (match pCrop p with Some c => c | None => (0, 0, 0, 0) end) as [[[? ?] ?] ?]. cbn [spUnits spScale]. eexists. eexists. split; [reflexivity|]. split; [reflexivity|].
    destruct (pVui p) as [v|]; [|reflexivity]. destruct S10 as (_ & _ & V & _). unfold timingOf. destruct (vTiming v) as [[[n sc] fx]|]; [|reflexivity]. cbn [fst snd].
    destruct V as [V1 V2]. rewrite !Z.mod_small by lia. unfold toInt. destruct (Z.ltb_spec n (2 ^ 31)); [|lia]. destruct (Z.ltb_spec sc (2 ^ 31)); [|lia]. auto. }
  assert (SZ : sizeOf s = Got (16 * (pWidth p + 1) - 2 * cropX p, 16 * (pHeight p + 1) * fields p - 2 * cropY p)).
  { unfold s, valOf, sizeOf, cropX, cropY, fields in *. destruct (pCrop p) as [[[[l r] t] b]|]; cbn [spWidth spHeight spFrameMbs spCrop spL spR spT spB isSome bz] in *.
    - change (1 =? 0) with false. cbv iota. unfold int32.
      destruct (pFrameMbs p); cbn [bz] in *;
        repeat match goal with |- context [?a <=? ?b] => destruct (Z.leb_spec a b); [|exfalso; lia] | |- context [?a <? ?b] => destruct (Z.ltb_spec a b); [|exfalso; lia] end; cbn [andb negb];
        rewrite !Z.mod_small by lia; do 2 f_equal; lia.
    - change (0 =? 0) with true. cbv iota. unfold int32.
      destruct (pFrameMbs p); cbn [bz] in *;
        repeat match goal with |- context [?a <=? ?b] => destruct (Z.leb_spec a b); [|exfalso; lia] | |- context [?a <? ?b] => destruct (Z.ltb_spec a b); [|exfalso; lia] end; cbn [andb negb];
        rewrite !Z.mod_small by lia; do 2 f_equal; lia. }
  unfold updateInfo. rewrite SZ. destruct T as (u & sc & -> & -> & T).
  destruct (Z.ltb_spec 0 (16 * (pWidth p + 1) - 2 * cropX p)); [|lia]. destruct (Z.ltb_spec 0 (16 * (pHeight p + 1) * fields p - 2 * cropY p)); [|lia].
  destruct (pVui p) as [v|]; [destruct (vTiming v) as [[[n sc'] fx]|]|].
  - destruct T as (-> & -> & T1 & T2). destruct (Z.ltb_spec 0 n); [|lia]. unfold int32. destruct (Z.leb_spec (- 2 ^ 31) (2 * n)); [|lia]. destruct (Z.ltb_spec (2 * n) (2 ^ 31)); [|lia]. cbn [andb negb].
    eexists. split; [reflexivity|]. cbn [fWidth fHeight fRate]. repeat split. f_equal. apply Z.quot_div_nonneg; lia.
  - subst u. eexists. split; [reflexivity|]. repeat split.
  - subst u. eexists. split; [reflexivity|]. repeat split.
Qed.
Theorem C35_size_partial : forall p h f, spsOk p -> known p -> (cropUnitX p = 2 \/ cropX p = 0) -> (cropUnitY p = 2 \/ cropY p = 0) -> 0 < picWidth p -> 0 < picHeight p ->
  exists f', updateSPSInfo (nalUnit h (rbsp_ p)) f = Got f' /\ fWidth f' = picWidth p /\ fHeight f' = picHeight p.
Proof.
  intros p h f S K X Y W H. unfold picWidth, picHeight in *. assert (EX : cropUnitX p * cropX p = 2 * cropX p) by (destruct X as [->| ->]; lia). assert (EY : cropUnitY p * cropY p = 2 * cropY p) by (destruct Y as [->| ->]; lia).
  rewrite EX, EY in *. destruct (reported p h f S K W H) as (f' & A & B & C & _). exists f'. auto.
Qed.
(** In particular for progressive 4:2:0 pictures, whatever the cropping. *)
Theorem C35_size_progressive_420 : forall p h f, spsOk p -> known p -> chroma p = 1 -> pFrameMbs p = true -> 0 < picWidth p -> 0 < picHeight p ->
  exists f', updateSPSInfo (nalUnit h (rbsp_ p)) f = Got f' /\ fWidth f' = picWidth p /\ fHeight f' = picHeight p.
Proof. intros p h f S K C F W H. apply C35_size_partial; try assumption; left; unfold cropUnitX, cropUnitY, fields; rewrite C, ?F; reflexivity. Qed.
(** An interlaced stream with vertical cropping is reported too high, always. *)
Theorem C35_interlaced_crop_refuted : forall p h f, spsOk p -> known p -> chroma p = 1 -> pFrameMbs p = false -> 0 < cropY p -> 0 < picWidth p -> 0 < picHeight p ->
  exists f', updateSPSInfo (nalUnit h (rbsp_ p)) f = Got f' /\ fWidth f' = picWidth p /\ fHeight f' = picHeight p + 2 * cropY p.
Proof.
  intros p h f S K C F N W H. assert (CX : cropUnitX p = 2) by (unfold cropUnitX; rewrite C; reflexivity). assert (CY : cropUnitY p = 4) by (unfold cropUnitY, fields; rewrite C, F; reflexivity).
  unfold picWidth, picHeight in *. rewrite CX, CY in *. destruct (reported p h f S K W ltac:(lia)) as (f' & A & B & D & _). exists f'. split; [exact A|]. split; [exact B|]. lia.
Qed.
(** The frame rate is the quotient rounded down, when the stream has timing information. *)
Theorem C35_rate_partial : forall p h f v n s fixed, spsOk p -> known p -> 0 < 16 * (pWidth p + 1) - 2 * cropX p -> 0 < 16 * (pHeight p + 1) * fields p - 2 * cropY p ->
  pVui p = Some v -> vTiming v = Some (n, s, fixed) ->
  exists f' r, updateSPSInfo (nalUnit h (rbsp_ p)) f = Got f' /\ fRate f' = Some r /\ r * (2 * n) <= s < (r + 1) * (2 * n).
Proof.
  intros p h f v n s fixed S K W H EV ET. destruct (reported p h f S K W H) as (f' & A & _ & _ & R). rewrite EV, ET in R. exists f', (s / (2 * n)). split; [exact A|]. split; [exact R|].
  destruct S as (_ & _ & _ & _ & _ & _ & _ & _ & _ & S). rewrite EV in S. destruct S as (_ & _ & S & _). rewrite ET in S. pose proof (Z.div_mod s (2 * n) ltac:(lia)). pose proof (Z.mod_pos_bound s (2 * n) ltac:(lia)). lia.
Qed.

(** Concrete streams. *)
Definition noHigh : highP := mkHigh 1 false 0 0 false None.
Definition hd : spsP := mkP 77 64 40 0 noHigh 0 (Poc0 2) 4 false 119 67 true false true (Some (0, 0, 0, 4))
  (Some (mkVui (Some (255, 4, 3)) None (Some (5, true, Some (1, 1, 1))) None (Some (1001, 60000, true)) (Some (mkHrd 1 2 [(1000, 2000, false)] 23 23 23 24)) None false true (Some (true, (2, 1, 10, 10, 0, 4))))).
Example C35_case : spsOk hd /\ known hd /\ picWidth hd = 1920 /\ picHeight hd = 1080 /\
  updateSPSInfo (nalUnit 103 (rbsp_ hd)) (mkInfo 0 0 None) = Got (mkInfo 1920 1080 (Some 29)).
Proof.
  split. { unfold spsOk, hd. cbn. unfold ub, ueOk, highOk, vuiOk, hrdOk, ub, ueOk. cbn. repeat split; try lia; repeat constructor; lia. }
  split. { split; [cbn; lia|discriminate]. } split; [reflexivity|]. split; [reflexivity|]. vm_compute. reflexivity.
Qed.
(** 60000 / 2002 = 29.97 is reported as 29. *)
Theorem C35_rate_refuted : exists f, updateSPSInfo (nalUnit 103 (rbsp_ hd)) (mkInfo 0 0 None) = Got f /\ fRate f = Some 29 /\ 29 * 2002 <> 60000.
Proof. eexists. split; [vm_compute; reflexivity|]. split; [reflexivity|discriminate]. Qed.
(** A scaling list, or one of the newer profiles, makes the reader lose its place. *)
Definition scaled : spsP := mkP 100 0 40 0 (mkHigh 1 false 0 0 false (Some [Some (repeat 1 16); None; None; None; None; None; None; None])) 0 (Poc0 2) 4 false 119 67 true false true None None.
Definition profile244 : spsP := mkP 244 0 40 0 noHigh 0 (Poc0 2) 4 false 119 67 true false true None None.
Theorem C35_scaling_list_refuted : exists f, picWidth scaled = 1920 /\ updateSPSInfo (nalUnit 103 (rbsp_ scaled)) (mkInfo 0 0 None) = Got f /\ fWidth f <> 1920.
Proof. eexists. split; [reflexivity|]. split; [vm_compute; reflexivity|]. vm_compute. discriminate. Qed.
Theorem C35_profile_refuted : exists f, picWidth profile244 = 1920 /\ updateSPSInfo (nalUnit 103 (rbsp_ profile244)) (mkInfo 0 0 None) = Got f /\ fWidth f <> 1920.
Proof. eexists. split; [reflexivity|]. split; [vm_compute; reflexivity|]. vm_compute. discriminate. Qed.
(** A hostile stream writes outside the structure, or overflows. *)
Definition manyOffsets : spsP := mkP 77 0 40 0 noHigh 0 (Poc1 false 0 0 (repeat 0 257)) 4 false 119 67 true false true None None.
Definition manyCpbs : spsP := mkP 77 0 40 0 noHigh 0 (Poc0 2) 4 false 119 67 true false true None
  (Some (mkVui None None None None None (Some (mkHrd 0 0 (repeat (0, 0, false) 33) 0 0 0 0)) None false false None)).
Theorem C35_array_overrun_refuted : forall f, updateSPSInfo (nalUnit 103 (rbsp_ manyOffsets)) f = Ovr /\ updateSPSInfo (nalUnit 103 (rbsp_ manyCpbs)) f = Ovr.
Proof. intros f. split; vm_compute; reflexivity. Qed.

Print Assumptions C35_reads_inside.
Print Assumptions C35_payload_fits.
Print Assumptions C35_emulation.
Print Assumptions C35_emulation_accepts.
Print Assumptions C35_ue.
Print Assumptions C35_se.
Print Assumptions C35_u.
Print Assumptions C35_write_ue_partial.
Print Assumptions C35_write_se_partial.
Print Assumptions C35_size_partial.
Print Assumptions C35_size_progressive_420.
Print Assumptions C35_interlaced_crop_refuted.
Print Assumptions C35_rate_partial.
