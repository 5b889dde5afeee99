(** Properties of the transmitter: C32, C33, C36, C42, C45, C46. *)
From Coq Require Import String.
From Verif Require Import Base Bytes IsoProofs TxModel TxSpec TxProofs.
Local Open Scope list_scope.
Local Open Scope Z_scope.

(** ** C32: UltraGrid packets reassemble into the original frame *)
(** The frame [d], handed to the fragmenter with buffer number [b], is fetched packet by packet, each into the
    space announced; every packet may carry at least one byte (24 bytes are the header). Until the frame is
    complete the packets are contiguous from offset 0, none exceeds its space, each carries the frame's length.
    Missing for the full property: the first packet is also written far beyond its space, see below. *)
Theorem C32_fragments_partial : forall u maxOut avails d b h,
  d <> [] -> len d < 4294967296 -> Forall (fun a => 24 < Z.min a maxOut) avails ->
  let ps := fst (fragAll u maxOut avails (mkFr d 0 b h)) in
  let s := snd (fragAll u maxOut avails (mkFr d 0 b h)) in
  (exists c, contiguous 0 c (map pbytes ps) /\ c <= len d) /\
  (forall i p, nth_error ps i = Some p -> exists a, nth_error avails i = Some a /\ len (pbytes p) <= Z.min a maxOut) /\
  (forall p, In p ps -> word 2 (pbytes p) = len d /\ payload (pbytes p) = sub (Z.to_nat (offsetOf (pbytes p))) (length (payload (pbytes p))) d).
Proof.
  intros u maxOut avails d b h N L F ps s.
  assert (LD : 0 < len d) by (destruct d; [congruence|rewrite len_cons; pose proof (len_nonneg d); lia]).
  destruct (frag_all u maxOut avails d 0 b h N ltac:(lia) L (or_introl eq_refl) F) as (A1 & (c & A2 & A3 & A4) & A5 & A6).
  fold ps in A1, A2, A5, A6. fold s in A3, A4, A5. split; [|split; [exact A6|]].
  - exists c. split; [exact A2|]. destruct (fdata s) eqn:E; [destruct (A3 eq_refl); lia|]. destruct (A4 ltac:(discriminate)) as (_ & X & _). lia.
  - intros p I. rewrite Forall_forall in A1. destruct (A1 p I) as [B1 B2 B3 B4 B5]. split.
    + rewrite B4. rewrite (word_load _ 2 0) by (cbn; lia). cbn [nth ugHeader]. apply Z.mod_small. lia.
    + rewrite B2 at 1. unfold piece, sub. do 2 f_equal. unfold len. lia.
Qed.
(** With enough packets (as many as bytes always suffice) the frame is completed: the receiver that puts each
    payload at its offset gets exactly the frame, whatever the order in which packets arrive and however often
    each arrives, and the last packet, and no other, is marked. *)
Theorem C32_reassembly_partial : forall u maxOut avails d b h ps' buf,
  d <> [] -> len d < 4294967296 -> Forall (fun a => 24 < Z.min a maxOut) avails -> len d <= Z.of_nat (length avails) ->
  let ps := map pbytes (fst (fragAll u maxOut avails (mkFr d 0 b h))) in
  incl ps ps' -> incl ps' ps -> len buf = len d ->
  contiguous 0 (len d) ps /\ reassemble ps' buf = d.
Proof.
  intros u maxOut avails d b h ps' buf N L F E ps I1 I2 LB.
  assert (LD : 0 < len d) by (destruct d; [congruence|rewrite len_cons; pose proof (len_nonneg d); lia]).
  destruct (frag_all u maxOut avails d 0 b h N ltac:(lia) L (or_introl eq_refl) F) as (A1 & (c & A2 & A3 & A4) & _ & _).
  assert (C : c = len d).
  { destruct (fdata (snd (fragAll u maxOut avails (mkFr d 0 b h)))) eqn:X; [apply A3; reflexivity|].
    destruct (A4 ltac:(discriminate)) as (_ & B1 & B2 & _). lia. }
  subst c. split; [exact A2|]. apply (reassemble_all d ps ps' buf); try assumption.
  apply Forall_forall. intros q Q. apply in_map_iff in Q. destruct Q as (p & <- & Q). rewrite Forall_forall in A1.
  destruct (A1 p Q) as [B1 B2 B3 _ _]. split; [exact B1|]. split; [exact B3|exact B2].
Qed.
Theorem C32_last : forall u maxOut avails d b h,
  d <> [] -> len d < 4294967296 -> Forall (fun a => 24 < Z.min a maxOut) avails -> len d <= Z.of_nat (length avails) ->
  exists init p, fst (fragAll u maxOut avails (mkFr d 0 b h)) = init ++ [p] /\ plast p = true /\ Forall (fun p => plast p = false) init /\
    snd (fragAll u maxOut avails (mkFr d 0 b h)) = mkFr [] 0 ((b + 1) mod 4294967296) (fhdr (snd (fragAll u maxOut avails (mkFr d 0 b h)))).
Proof.
  intros u maxOut avails d b h N L F E.
  assert (LD : 0 < len d) by (destruct d; [congruence|rewrite len_cons; pose proof (len_nonneg d); lia]).
  destruct (frag_all u maxOut avails d 0 b h N ltac:(lia) L (or_introl eq_refl) F) as (A1 & (c & A2 & A3 & A4) & A5 & _).
  destruct (snd (fragAll u maxOut avails (mkFr d 0 b h))) as [fd fc fb fh]. cbn [fdata fcur fbuf fhdr] in *.
  assert (X : fd = []). { destruct fd; [reflexivity|]. destruct (A4 ltac:(discriminate)) as (_ & B1 & B2 & _). lia. }
  subst fd. destruct (A5 eq_refl) as (init & p & B1 & B2 & B3). destruct (A3 eq_refl) as (_ & -> & ->).
  exists init, p. repeat split; assumption.
Qed.
(** Every packet's header says which tile and frame it belongs to, the picture's size and its rate, as UltraGrid's
    receivers decode them. *)
Theorem C32_header_partial : forall u maxOut avails d b h p,
  d <> [] -> len d < 4294967296 -> Forall (fun a => 24 < Z.min a maxOut) avails ->
  0 <= utile u < 512 -> 0 <= b -> 0 <= uw u < 65536 -> 0 <= uh u < 65536 -> 0 <= uil u < 8 -> 0 <= ufps u < 1024 -> 0 <= ufd u < 2 ->
  In p (fst (fragAll u maxOut avails (mkFr d 0 b h))) ->
  word 0 (pbytes p) / 2 ^ 22 = utile u /\ word 0 (pbytes p) mod 2 ^ 22 = b mod 2 ^ 22 /\
  word 3 (pbytes p) / 2 ^ 16 = uw u /\ word 3 (pbytes p) mod 2 ^ 16 = uh u /\
  sub 16 4 (pbytes p) = tag "AVC1"%string /\
  word 5 (pbytes p) / 2 ^ 29 = uil u /\ word 5 (pbytes p) / 2 ^ 19 mod 2 ^ 10 = ufps u /\
  word 5 (pbytes p) / 2 ^ 15 mod 2 ^ 4 = 1 /\ word 5 (pbytes p) / 2 ^ 14 mod 2 = ufd u /\ word 5 (pbytes p) / 2 ^ 13 mod 2 = 0.
Proof.
  intros u maxOut avails d b h p N L F U1 B U2 U3 U4 U5 U6 I.
  assert (LD : 0 < len d) by (destruct d; [congruence|rewrite len_cons; pose proof (len_nonneg d); lia]).
  destruct (frag_all u maxOut avails d 0 b h N ltac:(lia) L (or_introl eq_refl) F) as (A1 & _).
  rewrite Forall_forall in A1. destruct (A1 p I) as [_ _ _ H _]. set (o := offsetOf (pbytes p)) in H. set (r := payload (pbytes p)) in H. rewrite H.
  rewrite !(word_load _ _ 0) by (cbn; lia). cbn [nth ugHeader].
  assert (W0 : w32 (Z.lor (Z.shiftl (utile u) 22) (Z.land 4194303 b)) mod 4294967296 = utile u * 2 ^ 22 + b mod 2 ^ 22).
  { unfold w32. rewrite Z.mod_mod by lia. rewrite Z.land_comm. change 4194303 with (Z.ones 22). rewrite Z.land_ones by lia.
    pose proof (Z.mod_pos_bound b (2 ^ 22) ltac:(lia)). rewrite lor_add by lia. apply Z.mod_small. lia. }
  assert (W3 : w32 (Z.lor (Z.shiftl (uw u) 16) (uh u)) mod 4294967296 = uw u * 2 ^ 16 + uh u).
  { unfold w32. rewrite Z.mod_mod by lia. rewrite lor_add by lia. apply Z.mod_small. lia. }
  assert (W5 : ugWord6 (uil u) (ufps u) (ufd u) mod 4294967296 = uil u * 2 ^ 29 + ufps u * 2 ^ 19 + 2 ^ 15 + ufd u * 2 ^ 14).
  { unfold ugWord6, w32. rewrite Z.mod_mod by lia.
    rewrite !Z.shiftl_mul_pow2 by lia. rewrite <- (Z.shiftl_mul_pow2 (uil u) 29) by lia. rewrite (lor_add (uil u) (ufps u * 2 ^ 19) 29) by lia.
    replace (uil u * 2 ^ 29 + ufps u * 2 ^ 19) with ((uil u * 2 ^ 10 + ufps u) * 2 ^ 19) by lia.
    rewrite <- (Z.shiftl_mul_pow2 (uil u * 2 ^ 10 + ufps u) 19) by lia. rewrite lor_add by lia.
    replace ((uil u * 2 ^ 10 + ufps u) * 2 ^ 19 + 1 * 2 ^ 15) with ((uil u * 2 ^ 14 + ufps u * 2 ^ 4 + 1) * 2 ^ 15) by lia.
    rewrite <- (Z.shiftl_mul_pow2 (uil u * 2 ^ 14 + ufps u * 2 ^ 4 + 1) 15) by lia. rewrite lor_add by lia.
    rewrite Z.mod_small by lia. rewrite ?Z.shiftl_mul_pow2 by lia. lia. }
  rewrite W0, W3, W5. pose proof (Z.mod_pos_bound b (2 ^ 22) ltac:(lia)). set (x := b mod 2 ^ 22) in *. clearbody x.
  split; [symmetry; apply (Z.div_unique _ _ _ x); lia|]. split; [symmetry; apply (Z.mod_unique _ _ (utile u)); lia|].
  split; [symmetry; apply (Z.div_unique _ _ _ (uh u)); lia|]. split; [symmetry; apply (Z.mod_unique _ _ (uw u)); lia|].
  split.
  { unfold ugHeader. cbn [loadHeader flat_map]. rewrite <- !app_assoc.
    replace (be 4 (rd (tag "AVC1"%string))) with (tag "AVC1"%string) by (vm_compute; reflexivity).
    match goal with |- sub 16 4 (?a ++ ?b ++ ?c ++ ?e ++ _ ++ ?r) = _ =>
      replace (a ++ b ++ c ++ e ++ tag "AVC1"%string ++ r) with ((a ++ b ++ c ++ e) ++ tag "AVC1"%string ++ r) by (rewrite <- !app_assoc; reflexivity) end.
    apply sub_app; [rewrite !app_length, !be_length|]; reflexivity. }
  split; [symmetry; apply (Z.div_unique _ _ _ (ufps u * 2 ^ 19 + 2 ^ 15 + ufd u * 2 ^ 14)); lia|].
  split. { replace ((uil u * 2 ^ 29 + ufps u * 2 ^ 19 + 2 ^ 15 + ufd u * 2 ^ 14) / 2 ^ 19) with (uil u * 2 ^ 10 + ufps u) by (apply (Z.div_unique _ _ _ (2 ^ 15 + ufd u * 2 ^ 14)); lia).
    symmetry. apply (Z.mod_unique _ _ (uil u)); lia. }
  split. { replace ((uil u * 2 ^ 29 + ufps u * 2 ^ 19 + 2 ^ 15 + ufd u * 2 ^ 14) / 2 ^ 15) with (uil u * 2 ^ 14 + ufps u * 2 ^ 4 + 1) by (apply (Z.div_unique _ _ _ (ufd u * 2 ^ 14)); lia).
    symmetry. apply (Z.mod_unique _ _ (uil u * 2 ^ 10 + ufps u)); lia. }
  split. { replace ((uil u * 2 ^ 29 + ufps u * 2 ^ 19 + 2 ^ 15 + ufd u * 2 ^ 14) / 2 ^ 14) with (uil u * 2 ^ 15 + ufps u * 2 ^ 5 + 2 + ufd u) by (apply (Z.div_unique _ _ _ 0); lia).
    symmetry. apply (Z.mod_unique _ _ (uil u * 2 ^ 14 + ufps u * 2 ^ 4 + 1)); lia. }
  replace ((uil u * 2 ^ 29 + ufps u * 2 ^ 19 + 2 ^ 15 + ufd u * 2 ^ 14) / 2 ^ 13) with (uil u * 2 ^ 16 + ufps u * 2 ^ 6 + 4 + ufd u * 2) by (apply (Z.div_unique _ _ _ 0); lia).
  symmetry. apply (Z.mod_unique _ _ (uil u * 2 ^ 15 + ufps u * 2 ^ 5 + 2 + ufd u)); lia.
Qed.
(** Rates of 1024 and more run into the interlacing field. *)
Theorem C32_rate_refuted : exists u avail d,
  uil u = 0 /\ let p := fst (fragStep u 1000 avail (mkFr d 0 0 [])) in word 5 (pbytes p) / 2 ^ 29 <> 0.
Proof. exists (mkU 1920 1080 1024 0 0 0), 1000, [1; 2; 3]. split; [reflexivity|]. vm_compute. discriminate. Qed.
(** Handing out the first packet writes the header, the whole frame and 24 bytes more into the space: whenever the
    frame is longer than the space less 48 bytes, memory behind the packet is overwritten. *)
Theorem C32_first_packet_overflows_refuted : forall u maxOut avail d b h,
  d <> [] -> 24 < Z.min avail maxOut ->
  let p := fst (fragStep u maxOut avail (mkFr d 0 b h)) in
  pwritten p = 24 + len d + 24 /\ (avail < len d + 48 -> avail < pwritten p) /\ len (pbytes p) <= Z.min avail maxOut.
Proof.
  intros u maxOut avail d b h N M p.
  assert (LD : 0 < len d) by (destruct d; [congruence|rewrite len_cons; pose proof (len_nonneg d); lia]).
  destruct (frag_step u maxOut avail d 0 b h N ltac:(lia) M (or_introl eq_refl)) as (w & _ & W & E).
  specialize (W eq_refl). unfold p. rewrite E. cbn [fst pwritten pbytes]. subst w. split; [lia|]. split; [lia|].
  rewrite len_app, piece_len by lia. unfold len at 1. rewrite loadHeader_len. cbn [length ugHeader]. lia.
Qed.
Definition exCfg : ugConfig := mkU 1280 720 25 0 0 0.
Example C32_case :
  let d := [10; 20; 30; 40; 50; 60; 70] in
  let r := fragAll exCfg 27 [100; 26; 100; 100; 100; 100; 100] (mkFr d 0 5 []) in
  map (fun p => (offsetOf (pbytes p), payload (pbytes p), plast p)) (fst r) = [(0, [10; 20; 30], false); (3, [40; 50], false); (5, [60; 70], true)] /\
  map (fun p => word 0 (pbytes p)) (fst r) = [5; 5; 5] /\ fbuf (snd r) = 6.
Proof. vm_compute. repeat split. Qed.

(** ** C33: RTP payload headers encode the payload size *)
(** RFC 3640: a 16-bit length of the headers in bits, then 13 bits of size and 3 bits of index. *)
Theorem C33_au_header_partial : forall offset n rest, 0 <= offset -> 0 <= n -> 0 <= rest -> offset + n + rest < 8192 ->
  let h := auHeader offset n rest in
  len h = 4 /\ Forall isByte h /\ rd (sub 0 2 h) = 16 /\ rd (sub 2 2 h) / 8 = offset + n + rest /\ rd (sub 2 2 h) mod 8 = 0.
Proof.
  intros o n r O N R L. unfold auHeader, w32. set (s := o + n + r) in *. assert (0 <= s) by lia. clearbody s. rewrite (Z.mod_small s) by lia.
  change 31 with (Z.ones 5). rewrite Z.land_ones by lia. rewrite Z.shiftr_div_pow2, Z.shiftl_mul_pow2 by lia. change (2 ^ 5) with 32. change (2 ^ 3) with 8.
  assert (A : 0 <= s / 32 < 256) by (split; [apply Z.div_pos; lia|apply Z.div_lt_upper_bound; lia]).
  pose proof (Z.mod_pos_bound s 32 ltac:(lia)) as B. pose proof (Z.div_mod s 32 ltac:(lia)) as D.
  set (q := s / 32) in *. set (m := s mod 32) in *. clearbody q m. rewrite (Z.mod_small q) by lia. rewrite (Z.mod_small (m * 8)) by lia.
  split; [reflexivity|]. split; [repeat constructor; unfold isByte; lia|]. split; [reflexivity|].
  change (rd (sub 2 2 [0; 16; q; m * 8])) with ((0 * 256 + q) * 256 + m * 8).
  split; symmetry; [apply (Z.div_unique _ _ _ 0)|apply (Z.mod_unique _ _ s)]; lia.
Qed.
(** The size of a longer access unit is announced modulo 8192. *)
Theorem C33_au_header_large_refuted : forall offset n rest, 8192 <= offset + n + rest < 4294967296 -> 0 <= offset -> 0 <= n -> 0 <= rest ->
  rd (sub 2 2 (auHeader offset n rest)) / 8 = (offset + n + rest) mod 8192 /\ rd (sub 2 2 (auHeader offset n rest)) / 8 <> offset + n + rest.
Proof.
  intros o n r L O N R. unfold auHeader, w32. set (s := o + n + r) in *. clearbody s. rewrite (Z.mod_small s) by lia.
  change 31 with (Z.ones 5). rewrite Z.land_ones by lia. rewrite Z.shiftr_div_pow2, Z.shiftl_mul_pow2 by lia. change (2 ^ 5) with 32. change (2 ^ 3) with 8.
  pose proof (Z.mod_pos_bound s 32 ltac:(lia)) as B. pose proof (Z.div_mod s 32 ltac:(lia)) as D.
  set (q := s / 32) in *. set (m := s mod 32) in *. clearbody m. pose proof (Z.mod_pos_bound q 256 ltac:(lia)) as B2. pose proof (Z.div_mod q 256 ltac:(lia)) as D2.
  set (q1 := q mod 256) in *. set (q2 := q / 256) in *. clearbody q q1 q2. rewrite (Z.mod_small (m * 8)) by lia.
  change (rd (sub 2 2 [0; 16; q1; m * 8])) with ((0 * 256 + q1) * 256 + m * 8).
  assert (E : ((0 * 256 + q1) * 256 + m * 8) / 8 = q1 * 32 + m) by (symmetry; apply (Z.div_unique _ _ _ 0); lia). rewrite E.
  split; [apply (Z.mod_unique _ _ q2); lia|lia].
Qed.
Example C33_au_case : auHeader 0 371 0 = [0; 16; 11; 152] /\ rd (sub 2 2 (auHeader 0 8192 0)) / 8 = 0.
Proof. vm_compute. split; reflexivity. Qed.
(** UltraGrid audio: five words; sample rate and sample size share the fourth. *)
Theorem C33_ug_audio_header : forall chan buf offset n bps rate tg,
  0 <= chan < 1024 -> 0 <= buf < 2 ^ 22 -> 0 <= offset < 2 ^ 32 -> 0 <= n < 2 ^ 32 -> 0 <= bps < 64 -> 0 <= rate < 2 ^ 26 -> 0 <= tg < 2 ^ 32 ->
  let h := ugAudioHeader chan buf offset n bps rate tg in
  len h = 20 /\ word 0 h / 2 ^ 22 = chan /\ word 0 h mod 2 ^ 22 = buf /\ word 1 h = offset /\ word 2 h = n /\
  word 3 h / 2 ^ 26 = bps /\ word 3 h mod 2 ^ 26 = rate /\ word 4 h = tg.
Proof.
  intros chan buf offset n bps rate tg C B O N P R T h.
  assert (H : h = loadHeader [Z.lor (w32 (Z.shiftl chan 22)) buf; offset; n; Z.lor (w32 (Z.shiftl bps 26)) rate; tg] ++ []).
  { unfold h, ugAudioHeader. cbn [loadHeader flat_map]. rewrite !app_nil_r. reflexivity. }
  rewrite H. split; [rewrite len_app; unfold len; rewrite loadHeader_len; reflexivity|]. rewrite !(word_load _ _ 0) by (cbn; lia). cbn [nth].
  unfold w32. rewrite !Z.shiftl_mul_pow2 by lia. rewrite (Z.mod_small (chan * 2 ^ 22)) by lia. rewrite (Z.mod_small (bps * 2 ^ 26)) by lia.
  rewrite <- !Z.shiftl_mul_pow2 by lia. rewrite !lor_add by lia. change 4294967296 with (2 ^ 32).
  rewrite (Z.mod_small (_ + _)) by lia. rewrite (Z.mod_small offset), (Z.mod_small n), (Z.mod_small tg) by lia. rewrite (Z.mod_small (bps * _ + _)) by lia.
  repeat split; try reflexivity; symmetry;
    [apply (Z.div_unique _ _ _ buf)|apply (Z.mod_unique _ _ chan)|apply (Z.div_unique _ _ _ rate)|apply (Z.mod_unique _ _ bps)]; lia.
Qed.
(** Buffer numbers go round modulo 2^22, so that consecutive packets never have the same one. *)
Theorem C33_buffer_numbers : forall b, 0 <= b < 2 ^ 22 ->
  ugNextBuffer b = (b + 1) mod 2 ^ 22 /\ 0 <= ugNextBuffer b < 2 ^ 22 /\ ugNextBuffer b <> b.
Proof.
  intros b B. unfold ugNextBuffer. change 4194303 with (Z.ones 22). rewrite Z.land_ones by lia. split; [reflexivity|].
  split; [apply Z.mod_pos_bound; lia|]. destruct (Z.eq_dec b (2 ^ 22 - 1)) as [->|X]; [vm_compute; discriminate|]. rewrite Z.mod_small by lia. lia.
Qed.
(** 16-bit samples arrive in network order: what the receiver reads big-endian is what the sender held
    little-endian. *)
Fixpoint samplesLE (l : bytes) : list Z := match l with a :: b :: r => (a + 256 * b) :: samplesLE r | _ => [] end.
Fixpoint samplesBE (l : bytes) : list Z := match l with a :: b :: r => (256 * a + b) :: samplesBE r | _ => [] end.
Theorem C33_pcm_order : forall n l, length l = (2 * n)%nat -> samplesBE (swap16 l) = samplesLE l /\ length (swap16 l) = length l.
Proof.
  induction n; intros l L; [destruct l; [split; reflexivity|discriminate]|].
  destruct l as [|a [|b l]]; try (cbn in L; lia). cbn [swap16 samplesBE samplesLE]. destruct (IHn l) as [A B]; [cbn [length] in L; lia|].
  rewrite A. split; [f_equal; lia|cbn [length]; rewrite B; reflexivity].
Qed.
Example C33_audio_case : word 3 (ugAudioHeader 0 7 0 960 16 48000 1) = 1073789824 /\ samplesBE (swap16 [1; 2; 3; 4]) = [513; 1027].
Proof. vm_compute. split; reflexivity. Qed.

(** ** C36: parameter sets are extracted from stream configuration data intact *)
(** Whatever follows the data in memory, the unit kept as each parameter set is the last one of that type, with all
    its bytes, and its announced size is its length modulo 256. *)
Theorem C36_parameter_sets_partial : forall c us after, us <> [] -> Forall (fun u => okUnit (snd u)) us ->
  let entry t := match lastOf c t us with Some u => Some (u, len u mod 256) | None => None end in
  fst (parseExtradata c (wire us) after) = Parsed (mkH (entry (vpsType c)) (entry (spsType c)) (entry (ppsType c))).
Proof. intros c us after N F entry. rewrite parse_wire by assumption. cbn [fst]. rewrite feed_all. reflexivity. Qed.
Lemma last_in (A : Type) (l : list A) d : l <> [] -> In (last l d) l.
Proof. induction l as [|x [|y l] IH]; intros N; [congruence|left; reflexivity|]. right. apply IH. discriminate. Qed.
(** So units shorter than 256 bytes are announced with their size, and longer ones are not. *)
Theorem C36_size : forall c us after t u, us <> [] -> Forall (fun u => okUnit (snd u)) us ->
  lastOf c (Some t) us = Some u -> Some t = spsType c ->
  exists h n, fst (parseExtradata c (wire us) after) = Parsed h /\ hsps h = Some (u, n) /\ (n = len u <-> len u < 256).
Proof.
  intros c us after t u N F L T. pose proof (C36_parameter_sets_partial c us after N F) as E. cbv zeta in E.
  eexists. exists (len u mod 256). split; [exact E|]. cbn [hsps]. rewrite <- T, L. split; [reflexivity|].
  pose proof (len_nonneg u). split; intros X; [rewrite <- X; apply Z.mod_pos_bound; lia|apply Z.mod_small; lia].
Qed.
(** Reading always goes beyond the end of the configuration data, ... *)
Theorem C36_overread_refuted : forall c us after, us <> [] -> Forall (fun u => okUnit (snd u)) us ->
  snd (parseExtradata c (wire us) after) = true.
Proof. intros c us after N F. rewrite parse_wire by assumption. reflexivity. Qed.
(** ... by three bytes: what lies further never matters, for any data whatsoever. *)
Theorem C36_overread_bound : forall c ex a b, ex <> [] -> (3 <= length a)%nat -> (3 <= length b)%nat ->
  firstn 3 a = firstn 3 b -> parseExtradata c ex a = parseExtradata c ex b.
Proof. exact parse_agree. Qed.
(** Those bytes can change the outcome: data that end in zeros may or may not make the transmitter fail. *)
Theorem C36_depends_on_memory_refuted : exists c ex a b,
  fst (parseExtradata c ex a) = NegativeSize /\ exists h, fst (parseExtradata c ex b) = Parsed h /\ hsps h <> None.
Proof.
  exists H264, [0; 0; 1; 103; 0; 0], [1; 0; 0], [0; 0; 0]. split; [vm_compute; reflexivity|].
  eexists. split; [vm_compute; reflexivity|]. discriminate.
Qed.
(** An empty unit (two start codes in a row) makes it read outside its memory. *)
Theorem C36_empty_unit_refuted : exists c us after, fst (parseExtradata c (wire us) after) = EmptyUnit.
Proof. exists H264, [(Long, []); (Long, [103; 1])], [0; 0; 0]. vm_compute. reflexivity. Qed.
Definition exUnits : list (code * bytes) := [(Long, [103; 66; 0; 30]); (Short, [104; 206; 60; 128])].
Example C36_case : Forall (fun u => okUnit (snd u)) exUnits /\
  fst (parseExtradata H264 (wire exUnits) [9; 9; 9]) = Parsed (mkH None (Some ([103; 66; 0; 30], 4)) (Some ([104; 206; 60; 128], 4))).
Proof.
  split; [|vm_compute; reflexivity].
  repeat constructor; cbn [snd]; try discriminate; try (unfold isByte; lia);
    intros a b E; do 5 (destruct a as [|? a]; [try discriminate|cbn in E; try (injection E as ? E); try discriminate]).
Qed.

(** ** C42: NAL units sent over RTP lose only what is reported as truncated *)
(** With a start code of either length in front, what is delivered is the unit's prefix, and the rest is counted.
    [junk] is what the buffer holds behind the frame. *)
Theorem C42_start_code_partial : forall c u junk max, len u < 4294967296 -> 0 <= max ->
  let r := deliver264 (codeBytes c ++ u ++ junk) (len (codeBytes c) + len u) max in
  fst r = firstn (Z.to_nat max) u /\ len (fst r) + snd r = len u.
Proof.
  intros c u junk max L M r. unfold r. rewrite (deliver264_at (len (codeBytes c))) by (try apply startOffset_code; auto).
  cbn [fst snd]. split; [reflexivity|]. unfold len. rewrite firstn_length. lia.
Qed.
(** Without a start code, a unit of at least four bytes is delivered as it is. *)
Theorem C42_bare_partial : forall u junk max, len u < 4294967296 -> 0 <= max -> 4 <= len u ->
  firstn 3 u <> [0; 0; 1] -> firstn 4 u <> [0; 0; 0; 1] ->
  let r := deliver264 (u ++ junk) (len u) max in
  fst r = firstn (Z.to_nat max) u /\ len (fst r) + snd r = len u.
Proof.
  intros u junk max L M F A B r. unfold r.
  assert (O : startOffset (u ++ junk) = 0).
  { destruct u as [|x [|y [|z [|w u]]]]; try (unfold len in F; cbn in F; lia). cbn [firstn app] in *. unfold startOffset.
    destruct (Z.eqb_spec x 0), (Z.eqb_spec y 0), (Z.eqb_spec z 0), (Z.eqb_spec z 1), (Z.eqb_spec w 1); cbn [andb]; try reflexivity; subst; congruence. }
  pose proof (deliver264_at 0 u [] junk max O eq_refl L M) as E. change (len []) with 0 in E. rewrite Z.add_0_l in E. cbn [app] in E. rewrite E.
  cbn [fst snd]. split; [reflexivity|]. unfold len. rewrite firstn_length. lia.
Qed.
(** For other streams. *)
Theorem C42_plain : forall u max, 0 <= max ->
  let r := deliverRaw u (len u) max in fst r = firstn (Z.to_nat max) u /\ len (fst r) + snd r = len u.
Proof.
  intros u max M r. unfold r. rewrite deliverRaw_spec by exact M. cbn [fst snd]. split; [reflexivity|]. unfold len. rewrite firstn_length. lia.
Qed.
(** A frame shorter than a start code, with old bytes behind it that complete one, is announced with a size of
    about 2^32. *)
Theorem C42_short_frame_refuted : exists mem size max,
  size <= len mem /\ let r := deliver264 mem size max in len (fst r) + snd r <> size.
Proof. exists [0; 0; 1; 5; 5], 2, 3. split; [vm_compute; discriminate|]. vm_compute. discriminate. Qed.
(** Injecting start codes: 0 0 0 1 in front of what the source delivers into the space left. *)
Theorem C42_injected_partial : forall u max, 4 <= max < 4294967296 ->
  let r := inject (fun space => deliverRaw u (len u) space) max in
  fst r = [0; 0; 0; 1] ++ firstn (Z.to_nat (max - 4)) u /\ len (fst r) <= max /\ len (fst r) + snd r = 4 + len u.
Proof.
  intros u max M r. unfold r, inject, w32. rewrite Z.mod_small by lia. rewrite deliverRaw_spec by lia. cbn [fst snd].
  split; [reflexivity|]. rewrite len_app. change (len [0; 0; 0; 1]) with 4. unfold len. rewrite firstn_length. lia.
Qed.
(** With a space of less than four bytes the whole unit is written anyway. *)
Theorem C42_injected_small_refuted : forall u max, 0 <= max < 4 -> len u <= 4294967292 ->
  len (fst (inject (fun space => deliverRaw u (len u) space) max)) = 4 + len u /\ max < 4 + len u.
Proof.
  intros u max M L. unfold inject. assert (W : len u <= w32 (max - 4)).
  { unfold w32. rewrite <- (Z.mod_unique (max - 4) 4294967296 (-1) (max - 4 + 4294967296)) by lia. lia. }
  assert (P : 0 <= w32 (max - 4)) by (pose proof (len_nonneg u); lia). rewrite deliverRaw_spec by exact P. cbn [fst].
  pose proof (len_nonneg u). rewrite len_app. change (len [0; 0; 0; 1]) with 4. rewrite firstn_all2 by (unfold len in *; lia). lia.
Qed.
Example C42_case : deliver264 ([0; 0; 0; 1; 101; 7; 8; 9] ++ [77]) 8 3 = ([101; 7; 8], 1).
Proof. reflexivity. Qed.

(** ** C45: a frame handed to a network source is delivered at most once, and none is lost while it plays *)
(** For every history of frames handed over and collected, requests, triggers and stops: the frames delivered are,
    in order, among those handed over, each at most once per time it was handed over. *)
Theorem C45_at_most_once : forall os, let e := fst (qrun Plain os newQ) in subseq (deliveredIn e) (takenIn e).
Proof.
  intros os. apply (qrun_once Plain os newQ); [intros _; reflexivity|discriminate|].
  generalize newQ. induction os as [|o os IH]; intros q; cbn; [auto|]. split; [discriminate|apply IH].
Qed.
(** For H.264 and H.265 this holds if data is never requested again before the frame has been collected. *)
Theorem C45_nal_at_most_once_partial : forall os, patient Nal os newQ ->
  let e := fst (qrun Nal os newQ) in subseq (deliveredIn e) (takenIn e).
Proof. intros os P. apply (qrun_once Nal os newQ); [intros _; reflexivity|discriminate|exact P]. Qed.
(** Otherwise the same frame is delivered twice, which live555 does whenever the network sink is faster than the
    worker that collects frames. *)
Theorem C45_nal_twice_refuted : exists os, let e := fst (qrun Nal os newQ) in takenIn e = [1] /\ deliveredIn e = [1; 1].
Proof. exists [QAsk; QSet 1; QTrigger; QAsk]. split; reflexivity. Qed.
(** Once it plays and until it is stopped, only frames that have been delivered are collected. *)
Theorem C45_not_lost : forall k os, ~ In QStop os ->
  let e := fst (qrun k (QAsk :: os) newQ) in subseq (collectedIn e) (deliveredIn e).
Proof.
  intros k os N e. unfold e. cbn [qrun]. change (qstep k QAsk newQ) with (@nil qev, mkQ None false false true). cbv iota beta.
  pose proof (qrun_kept k os (mkQ None false false true) (fun _ => eq_refl) N eq_refl) as H. cbn [heldDone qframe app] in H.
  destruct (qrun k os (mkQ None false false true)) as [es q]. cbn [fst app] in *. exact H.
Qed.
Example C45_case : fst (qrun Plain [QAsk; QSet 1; QSet 2; QTrigger; QAsk; QGot; QSet 2; QTrigger; QGot] newQ)
  = [Taken 1; Delivered 1; Collected 1; Taken 2; Delivered 2; Collected 2].
Proof. reflexivity. Qed.

(** ** C46: the pictures sent to UltraGrid are the units between delimiters *)
(** While everything fits, each picture given out is made of the units since the previous delimiter, in order, each
    behind a start code (or its length), without the delimiters. *)
Theorem C46_pictures_partial : forall annexb max gs tail, max < 4294967296 ->
  Forall (fun g => Forall (fun u => ~ isDelimiter u) (fst g) /\ isDelimiter (snd g) /\ len (picture annexb (fst g)) + 4 + len (snd g) <= max) gs ->
  Forall (fun u => ~ isDelimiter u) tail -> len (picture annexb tail) <= max ->
  sampleStream annexb max [] (stream gs ++ tail) = Some (map (fun g => (picture annexb (fst g), 0)) gs, picture annexb tail).
Proof. intros annexb max gs tail M F T L. apply sample_groups; assumption. Qed.
(** With lengths in front, a receiver recovers the units. *)
Fixpoint units4 (fuel : nat) (l : bytes) : list bytes :=
  match fuel, l with
  | S f, _ :: _ => let n := Z.to_nat (rd (firstn 4 l)) in firstn n (skipn 4 l) :: units4 f (skipn (4 + n) l)
  | _, _ => []
  end.
Theorem C46_lengths : forall g, Forall (fun u => len u < 4294967296) g -> units4 (length g) (picture false g) = g.
Proof.
  induction g as [|u g IH]; intros F; [reflexivity|]. inversion F as [|? ? F1 F2]; subst. specialize (IH F2).
  pose proof (len_nonneg u). cbn [length picture flat_map]. change (flat_map (framed false) g) with (picture false g). unfold framed. rewrite <- app_assoc.
  assert (LB := be_length 4 (len u)). assert (RB : rd (be 4 (len u)) = len u) by (apply rd_be_id; change (256 ^ Z.of_nat 4) with 4294967296; lia).
  set (b4 := be 4 (len u)) in *. clearbody b4. destruct b4 as [|b0 b4]; [discriminate|]. set (B := b0 :: b4) in *.
  cbn [units4]. change (B ++ u ++ picture false g) with (b0 :: (b4 ++ u ++ picture false g)). cbv zeta. change (b0 :: (b4 ++ u ++ picture false g)) with (B ++ u ++ picture false g).
  rewrite firstn_app_len by exact LB. rewrite RB. replace (Z.to_nat (len u)) with (length u) by (unfold len; lia).
  rewrite (skipn_app_len _ 4) by exact LB. rewrite firstn_app_len by reflexivity.
  rewrite app_assoc. rewrite skipn_app_len by (rewrite app_length; lia). rewrite IH. reflexivity.
Qed.
(** A picture that does not fit loses its last unit whole, although only the excess is reported. *)
Theorem C46_truncation_refuted : exists max us p t,
  sampleStream true max [] us = Some ([(p, t)], []) /\ len p + t < len (picture true us).
Proof. exists 12, [[101; 1; 2; 3]; [65; 1; 2]], [0; 0; 0; 1; 101; 1; 2; 3], 3. split; vm_compute; reflexivity. Qed.
(** When less than four bytes are left, writing goes beyond the space. *)
Theorem C46_overflow_refuted : exists max us, sampleStream true max [] us = None.
Proof. exists 10, [[101; 1; 2; 3]; [65; 1; 2]]. vm_compute. reflexivity. Qed.
Example C46_case : sampleStream true 100 [] [[9; 240]; [103; 1]; [101; 2]; [9; 240]; [65; 3]; [9; 16]; [65; 4]]
  = Some ([([], 0); ([0; 0; 0; 1; 103; 1; 0; 0; 0; 1; 101; 2], 0); ([0; 0; 0; 1; 65; 3], 0)], [0; 0; 0; 1; 65; 4]).
Proof. vm_compute. reflexivity. Qed.

Print Assumptions C32_fragments_partial.
Print Assumptions C32_reassembly_partial.
Print Assumptions C32_last.
Print Assumptions C32_header_partial.
Print Assumptions C32_first_packet_overflows_refuted.
Print Assumptions C33_au_header_partial.
Print Assumptions C33_au_header_large_refuted.
Print Assumptions C33_ug_audio_header.
Print Assumptions C33_buffer_numbers.
Print Assumptions C33_pcm_order.
Print Assumptions C36_parameter_sets_partial.
Print Assumptions C36_size.
Print Assumptions C36_overread_refuted.
Print Assumptions C36_overread_bound.
Print Assumptions C42_start_code_partial.
Print Assumptions C42_bare_partial.
Print Assumptions C42_plain.
Print Assumptions C42_injected_partial.
Print Assumptions C42_injected_small_refuted.
Print Assumptions C45_at_most_once.
Print Assumptions C45_nal_at_most_once_partial.
Print Assumptions C45_not_lost.
Print Assumptions C46_pictures_partial.
Print Assumptions C46_lengths.
