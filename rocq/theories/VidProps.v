(** C30 and C31: the video mixer and the video splitter. *)
From Verif Require Import Base ZMap F32 VidModel VidSpec VidProofs.
From Coq Require Import Sorted.
Local Open Scope Z_scope.

(** *** C30. *)
(** For every reachable configuration and every set of inputs there is exactly one drawing order ([below] is
    a strict order: every visible channel once, lower layers first), and every pixel of the output is what
    remains of it after painting the visible channels in that order on black; the memory around the picture
    is untouched; the announced size is that of the layout and fits the buffer of 1920x1080 pixels. *)
Theorem mixer_draws_in_layer_order : forall scale blend n w h ft m0 es ins mem out W H len ts m',
  newVM n w h ft = Some m0 -> let m := vmRun es m0 in msorted ins -> process scale blend ins mem m = (Picture out W H len ts, m') ->
  W = ow m /\ H = oh m /\ len = 3 * W * H /\ len <= 3 * 1920 * 1080 /\
  (exists L, drawing m ins L) /\
  forall L, drawing m ins L -> forall px py,
    out px py = if (0 <=? px) && (px <? W) && (0 <=? py) && (py <? H) then fold_left (paint scale blend W H px py) L 0 else mem px py.
Proof.
  intros scale blend n w h ft m0 es ins mem out W H len ts m' N m SO E. destruct (newVM_ok _ _ _ _ _ N) as [K0 KN]. destruct (vmRun_ok es m0 K0) as [K KM]. fold m in K, KM.
  unfold process in E. destruct (layers scale blend (Z.to_nat (maxCh m)) m 0 ins (Z.of_nat (length ins)) (clear (ow m) (oh m) mem) 0) as [l t| | |] eqn:LE; try discriminate E. cbv zeta in E.
  injection E as <- <- <- <- _ _. split; [reflexivity|]. split; [reflexivity|]. split; [reflexivity|]. pose proof K as (KW & KH & _). split; [change (3 * ow m * oh m <= 3 * 1920 * 1080); assert (ow m * oh m <= 1920 * 1080) by (apply Z.mul_le_mono_nonneg; lia); clearbody m; nia|].
  assert (CN: Z.of_nat (length ins) = Z.of_nat (length (filter (counted m 0) ins))).
  { f_equal. symmetry. f_equal. clear. induction ins as [|e r IH]; [reflexivity|]. cbn [filter]. assert (C: counted m 0 e = true) by (unfold counted; destruct (mfind (fst e) (cfg m)) as [c|]; [|reflexivity]; destruct (Z.leb_spec 0 (clayer c)), (Z.ltb_spec (clayer c) 0); cbn [andb negb]; try reflexivity; lia). rewrite C, IH. reflexivity. }
  destruct (layers_spec scale blend m (okVM_pos m K) _ _ _ _ _ _ _ _ (Z.le_refl 0) CN LE) as [P _].
  assert (DR: drawing m ins (drawnAll (Z.to_nat (maxCh m)) m 0 ins)).
  { split; [apply drawnAll_sorted, SO|]. intros s. rewrite drawnAll_in. unfold visible. split; intros (A & B & C & D); (split; [exact A|split; [exact B|split; [exact C|lia]]]). }
  split; [eexists; exact DR|]. intros L D px py. assert (LE2: L = drawnAll (Z.to_nat (maxCh m)) m 0 ins).
  { destruct D as [D1 D2]. destruct DR as [R1 R2]. apply sorted_unique; [exact D1|exact R1|]. intros s. rewrite D2, R2. reflexivity. }
  rewrite LE2, (P px py). unfold inside, clear. destruct ((0 <=? px) && (px <? ow m) && (0 <=? py) && (py <? oh m)); reflexivity.
Qed.
(** With opaque channels: a pixel shows the topmost channel that covers it, or black. *)
Theorem topmost_channel_wins : forall scale blend n w h ft m0 es ins mem out W H len ts m',
  newVM n w h ft = Some m0 -> let m := vmRun es m0 in msorted ins -> process scale blend ins mem m = (Picture out W H len ts, m') ->
  (forall s, visible m ins s -> cop (sch s) = one) ->
  let covers s px py := pix (cx (sch s)) W <= px < pix (cx (sch s)) W + pix (cw (sch s)) W /\ pix (cy (sch s)) H <= py < pix (cy (sch s)) H + pix (ch (sch s)) H in
  forall px py, 0 <= px < W -> 0 <= py < H ->
  (forall s, visible m ins s -> covers s px py -> (forall s', visible m ins s' -> covers s' px py -> s' = s \/ below s' s) ->
     out px py = (if (sw s =? pix (cw (sch s)) W) && (sh s =? pix (ch (sch s)) H) then spix s else scale (sw s) (sh s) (spix s) (pix (cw (sch s)) W) (pix (ch (sch s)) H)) (px - pix (cx (sch s)) W) (py - pix (cy (sch s)) H)) /\
  ((forall s, visible m ins s -> ~ covers s px py) -> out px py = 0).
Proof.
  intros scale blend n w h ft m0 es ins mem out W H len ts m' N m SO E OP covers px py PX PY.
  destruct (mixer_draws_in_layer_order _ _ _ _ _ _ _ es _ _ _ _ _ _ _ _ N SO E) as (_ & _ & _ & _ & (L & D) & P). fold m in D, P. rewrite (P L D px py).
  destruct (Z.leb_spec 0 px); [|lia]. destruct (Z.ltb_spec px W); [|lia]. destruct (Z.leb_spec 0 py); [|lia]. destruct (Z.ltb_spec py H); [|lia]. cbn [andb]. destruct D as [DS DI].
  assert (NC: forall s old, ~ covers s px py -> paint scale blend W H px py old s = old).
  { intros s old NC. unfold paint. cbv zeta. destruct (_ && _ && _ && _) eqn:B; [|reflexivity]. exfalso. apply NC. apply andb_true_iff in B. destruct B as [B B4]. apply andb_true_iff in B. destruct B as [B B3]. apply andb_true_iff in B. destruct B as [B1 B2]. unfold covers. lia. }
  assert (NA: forall l old, (forall s, In s l -> ~ covers s px py) -> fold_left (paint scale blend W H px py) l old = old).
  { induction l as [|a l IH]; intros old F; [reflexivity|]. cbn [fold_left]. rewrite NC by (apply F; left; reflexivity). apply IH. intros s I. apply F. right. exact I. }
  split.
  - intros s V C TOP. apply DI in V. destruct (in_split _ _ V) as (l1 & l2 & ->). rewrite fold_left_app. cbn [fold_left]. rewrite NA.
    + unfold paint. cbv zeta. destruct C as [C1 C2]. destruct (Z.leb_spec (pix (cx (sch s)) W) px); [|lia]. destruct (Z.ltb_spec px (pix (cx (sch s)) W + pix (cw (sch s)) W)); [|lia]. destruct (Z.leb_spec (pix (cy (sch s)) H) py); [|lia]. destruct (Z.ltb_spec py (pix (cy (sch s)) H + pix (ch (sch s)) H)); [|lia]. cbn [andb].
      rewrite (OP s (proj1 (DI s) V)), Z.eqb_refl. reflexivity.
    + intros s' I C'. assert (B: below s s').
      { clear -DS I. induction l1 as [|a l1 IH]; cbn [app] in DS; inversion DS as [|? ? S F]; subst; [|apply IH, S]. rewrite Forall_forall in F. apply F, I. }
      assert (V': visible m ins s') by (apply DI, in_or_app; right; right; exact I). destruct (TOP s' V' C') as [->|B']; [destruct B as [B|[_ B]]; lia|]. destruct B as [B|[B0 B]], B' as [B'|[B0' B']]; lia.
  - intros F. apply NA. intros s I. apply F, DI, I.
Qed.
(** Without a fixed rate the picture's time is the latest time of the channels shown. *)
Theorem mixer_time_is_latest : forall scale blend n w h ft m0 es ins mem out W H len ts m',
  newVM n w h ft = Some m0 -> let m := vmRun es m0 in msorted ins -> process scale blend ins mem m = (Picture out W H len ts, m') -> frameTime m <= 0 ->
  0 <= ts /\ (forall s, visible m ins s -> spts s <= ts) /\ (ts = 0 \/ exists s, visible m ins s /\ spts s = ts).
Proof.
  intros scale blend n w h ft m0 es ins mem out W H len ts m' N m SO E FT. destruct (newVM_ok _ _ _ _ _ N) as [K0 KN]. destruct (vmRun_ok es m0 K0) as [K KM]. fold m in K, KM.
  unfold process in E. destruct (layers scale blend (Z.to_nat (maxCh m)) m 0 ins (Z.of_nat (length ins)) (clear (ow m) (oh m) mem) 0) as [l t| | |] eqn:LE; try discriminate E. cbv zeta in E.
  destruct (Z.leb_spec (frameTime m) 0); [|lia]. injection E as _ _ _ _ <- _.
  assert (CN: Z.of_nat (length ins) = Z.of_nat (length (filter (counted m 0) ins))).
  { f_equal. symmetry. f_equal. clear. induction ins as [|e r IH]; [reflexivity|]. cbn [filter]. assert (C: counted m 0 e = true) by (unfold counted; destruct (mfind (fst e) (cfg m)) as [c|]; [|reflexivity]; destruct (Z.leb_spec 0 (clayer c)), (Z.ltb_spec (clayer c) 0); cbn [andb negb]; try reflexivity; lia). rewrite C, IH. reflexivity. }
  destruct (layers_spec scale blend m (okVM_pos m K) _ _ _ _ _ _ _ _ (Z.le_refl 0) CN LE) as [_ ->].
  assert (DI: forall s, In s (drawnAll (Z.to_nat (maxCh m)) m 0 ins) <-> visible m ins s) by (intros s; rewrite drawnAll_in; unfold visible; split; intros (A & B & C & D); (split; [exact A|split; [exact B|split; [exact C|lia]]])).
  assert (G: forall l t0, t0 <= fold_left maxTs l t0 /\ (forall s, In s l -> spts s <= fold_left maxTs l t0) /\ (fold_left maxTs l t0 = t0 \/ exists s, In s l /\ spts s = fold_left maxTs l t0)).
  { induction l0 as [|a r IH]; intros t0; cbn [fold_left]; [split; [lia|split; [intros s []|left; reflexivity]]|]. destruct (IH (maxTs t0 a)) as (I1 & I2 & I3). unfold maxTs in I1 at 1. split; [lia|]. split.
    - intros s [<-|I]; [lia|apply I2, I].
    - destruct I3 as [I3|(s & A & B)]; [|right; exists s; split; [right; exact A|exact B]]. rewrite I3. destruct (Z.max_spec (spts a) t0) as [[_ Q]|[_ Q]]; [left; exact Q|right]. exists a. split; [left; reflexivity|]. symmetry. exact Q. }
  destruct (G (drawnAll (Z.to_nat (maxCh m)) m 0 ins) 0) as (G1 & G2 & G3). split; [exact G1|]. split; [intros s V; apply G2, DI, V|]. destruct G3 as [G3|(s & A & B)]; [left; exact G3|right; exists s; split; [apply DI, A|exact B]].
Qed.
(** With a fixed rate it is the time the scheduler gave last, whatever the channels shown. *)
Definition lastSync (es : list vmEvent) : Z := fold_left (fun t e => match e with VSync u => u | _ => t end) es 0.
Lemma vmStep_sync e m : syncT (vmStep e m) = match e with VSync u => u | _ => syncT m end.
Proof.
  destruct e; cbn [vmStep]; unfold addChannel, delChannel, configChannel, configure; repeat match goal with |- context[if ?c then _ else _] => destruct c end; reflexivity.
Qed.
Theorem mixer_time_at_fixed_rate : forall scale blend n w h ft m0 es ins mem out W H len ts m',
  newVM n w h ft = Some m0 -> let m := vmRun es m0 in process scale blend ins mem m = (Picture out W H len ts, m') -> 0 < frameTime m ->
  ts = lastSync es.
Proof.
  intros scale blend n w h ft m0 es ins mem out W H len ts m' N m E FT. unfold process in E.
  destruct (layers scale blend _ m 0 ins _ _ 0) as [l t| | |]; try discriminate E. cbv zeta in E.
  destruct (Z.leb_spec (frameTime m) 0); [lia|]. injection E as _ _ _ _ <- _. unfold m.
  assert (S0 : syncT m0 = 0). { unfold newVM in N. destruct (_ || _ || _ || _); [discriminate|]. destruct (ft <? 0); [discriminate|]. injection N as <-. reflexivity. }
  unfold lastSync. rewrite <- S0. clear. revert m0. induction es as [|e es IH]; intros m0; [reflexivity|].
  unfold vmRun in *. cbn [fold_left]. rewrite IH, (vmStep_sync e m0). destruct e; reflexivity.
Qed.
(** Channels configured as documented (inside the layout, at least a pixel large) always give a picture. *)
Theorem documented_channels_always_mixed_partial : forall scale blend n w h ft m0 es ins mem, 0 <= n -> newVM n w h ft = Some m0 -> let m := vmRun es m0 in
  (forall id f c, In (id, f) ins -> mfind id (cfg m) = Some c -> cen c = true -> 0 <= clayer c < maxCh m ->
     f = NoFrame \/ (exists w h t p, f = Video w h t p /\ 0 < w /\ 0 < h /\ goodChan (ow m) (oh m) c)) ->
  exists out ts m', process scale blend ins mem m = (Picture out (ow m) (oh m) (3 * ow m * oh m) ts, m').
Proof.
  intros scale blend n w h ft m0 es ins mem NN N m G. destruct (newVM_ok _ _ _ _ _ N) as [K0 KN]. destruct (vmRun_ok es m0 K0) as [K KM]. fold m in K, KM. pose proof K as (KW & KH & _).
  unfold process. destruct (layers_good scale blend m ins KW KH G (Z.to_nat (maxCh m)) 0 (Z.of_nat (length ins)) (clear (ow m) (oh m) mem) 0 ltac:(lia) ltac:(lia)) as (l & t & ->). eexists _, _, _. reflexivity.
Qed.
(** The layer equal to the number of channels is accepted but never drawn. *)
Theorem top_layer_never_drawn_refuted : forall m id c m1 ins s, configChannel id c m = (true, m1) -> clayer c = maxCh m -> visible m1 ins s -> sid s <> id.
Proof.
  intros m id c m1 ins s E L (_ & M & _ & LL) Q. unfold configChannel in E. destruct (negb _); [discriminate|]. destruct (_ || _ || _ || _ || _ || _); [discriminate|]. destruct (_ || _); [discriminate|].
  apply (f_equal snd) in E. cbn [snd] in E. subst m1. cbn [withCfg cfg maxCh] in *. rewrite Q, mfind_mset, Z.eqb_refl in M. injection M as M. rewrite <- M in LL. lia.
Qed.
(** A channel smaller than a pixel, or to the right of the layout, is accepted and then stops the program. *)
Definition half : Z := one / 2.
Definition oneChannel (c : chan) : option (bool * output) :=
  match newVM 16 640 360 0 with
  | Some m => let m := vmStep (VAdd 1) m in let '(ok, m) := configChannel 1 c m in Some (ok, fst (process (fun _ _ p _ _ => p) (fun _ a _ => a) [(1, Video 320 180 7 (fun _ _ => 9))] (fun _ _ => 0) m))
  | None => None
  end.
Theorem tiny_channel_throws_refuted : oneChannel (mkCh (one / 1024) half 0 0 0 true one) = Some (true, Throw).
Proof. vm_compute. reflexivity. Qed.
Theorem channel_right_of_layout_throws_refuted : oneChannel (mkCh half half (2 * one) 0 0 true one) = Some (true, Throw).
Proof. vm_compute. reflexivity. Qed.
(** A case for the theorems: two channels, the second on top of the first. *)
Definition pip : list vmEvent := [VAdd 1; VAdd 2; VConf 1 (mkCh one one 0 0 1 true one); VConf 2 (mkCh half half half half 0 true one); VConf 2 (mkCh half half half half 3 true one)].
Example pip_case : exists m0 out ts m', newVM 16 640 360 0 = Some m0 /\
  process (fun _ _ p _ _ => p) (fun _ a _ => a) [(1, Video 640 360 5 (fun _ _ => 1)); (2, Video 320 180 7 (fun _ _ => 2))] (fun _ _ => 0) (vmRun pip m0) = (Picture out 640 360 691200 ts, m') /\
  out 10 10 = 1 /\ out 320 180 = 2 /\ ts = 7.
Proof. eexists _, _, _, _. split; [reflexivity|]. split; [vm_compute; reflexivity|]. split; [vm_compute; reflexivity|]. split; [vm_compute; reflexivity|reflexivity]. Qed.

(** *** C31. *)
(** For every reachable splitter and every picture: a destination whose crop is configured and fits gets
    exactly that rectangle of the picture, at its announced size, and nothing else of its buffer changes;
    any other destination is left unused and untouched; other buffers are untouched. The announced length
    is not that of the data (below). *)
Theorem splitter_gives_the_rectangle_partial : forall junk b0 es W H p dsts l s', let s := spRun junk es (sp0 b0) in
  msorted dsts -> NoDup (map snd dsts) -> split W H p dsts s = Ok (l, s') ->
  map fst l = map fst dsts /\
  (forall id b, In (id, b) dsts -> exists k, mfind id (crops s) = Some k /\
     ((0 < kw k /\ 0 < kh k /\ 0 <= kx k /\ kx k + kw k <= W /\ 0 <= ky k /\ ky k + kh k <= H /\ In (id, Cropped (kw k) (kh k) (kw k * kh k)) l /\
       forall px py, bufs s' b px py = if (0 <=? px) && (px <? kw k) && (0 <=? py) && (py <? kh k) then p (kx k + px) (ky k + py) else bufs s b px py)
      \/ ((kw k = 0 \/ W < kx k + kw k \/ H < ky k + kh k) /\ In (id, Unused) l /\ forall px py, bufs s' b px py = bufs s b px py))) /\
  (forall b, ~ In b (map snd dsts) -> forall px py, bufs s' b px py = bufs s b px py).
Proof.
  intros junk b0 es W H p dsts l s' s SO ND E. pose proof (spRun_ok junk es _ (sp0_ok b0)) as OK. fold s in OK. destruct (split_spec W H p dsts s l s' OK SO ND E) as (_ & _ & A & B & C & _).
  split; [exact A|]. split; [|exact C]. intros id b I. destruct (B id b I) as (k & M & O & D & _). exists k. split; [exact M|]. pose proof (proj2 OK id k M) as K. unfold outOf in O. unfold bufOf in D. unfold fits in *.
  destruct (Z.ltb_spec 0 (kw k)), (Z.leb_spec (kx k + kw k) W), (Z.leb_spec (ky k + kh k) H); cbn [andb] in *; try (right; split; [lia|split; [exact O|exact D]]); try (right; split; [destruct K as [(-> & _)|(? & _)]; lia|split; [exact O|exact D]]).
  left. destruct K as [(K & _)|(K1 & K2 & K3 & K4)]; [lia|]. split; [exact K1|]. split; [exact K2|]. split; [exact K3|]. split; [assumption|]. split; [exact K4|]. split; [assumption|]. split; [exact O|exact D].
Qed.
(** The library is never asked for a rectangle outside the picture (which would stop the program), and nothing
    is undefined when every destination has a crop whose sums fit an int. *)
Theorem splitter_never_throws : forall junk b0 es W H p dsts, split W H p dsts (spRun junk es (sp0 b0)) <> Throws.
Proof. intros. apply split_no_throw, spRun_ok, sp0_ok. Qed.
Theorem splitter_defined_partial : forall junk b0 es W H p dsts, let s := spRun junk es (sp0 b0) in 0 <= W < 32768 -> 0 <= H < 32768 ->
  (forall id b, In (id, b) dsts -> exists k, mfind id (crops s) = Some k /\ kx k + kw k <= 2147483647 /\ ky k + kh k <= 2147483647) ->
  exists l s', split W H p dsts s = Ok (l, s').
Proof.
  intros junk b0 es W H p dsts s HW HH HD. pose proof (spRun_ok junk es _ (sp0_ok b0)) as OK. pose proof (split_no_throw W H p dsts s OK). pose proof (split_defined W H p dsts s OK HW HH HD).
  destruct (split W H p dsts s) as [[l s']| |]; [eexists _, _; reflexivity|congruence|congruence].
Qed.
(** An accepted crop can overflow the sum. *)
Theorem crop_sum_overflows_refuted : exists s, s = spRun (fun _ _ => 0) [SAdd 1; SConf 1 1 1 2147483647 0 0] (sp0 (fun _ _ _ => 0)) /\
  forall W H p b, split W H p [(1, b)] s = Undef.
Proof. eexists. split; [reflexivity|]. intros. reflexivity. Qed.
(** The announced length is never the 3 bytes per pixel of the RGB picture. *)
Theorem announced_length_is_a_third_refuted : forall junk b0 es W H p dsts l s' id w h len, let s := spRun junk es (sp0 b0) in
  msorted dsts -> NoDup (map snd dsts) -> split W H p dsts s = Ok (l, s') -> In (id, Cropped w h len) l -> 3 * len = 3 * w * h /\ len < 3 * w * h.
Proof.
  intros junk b0 es W H p dsts l s' id w h len s SO ND E I. pose proof (spRun_ok junk es _ (sp0_ok b0)) as OK. fold s in OK. destruct (split_spec W H p dsts s l s' OK SO ND E) as (_ & _ & A & B & _).
  assert (IN: In id (map fst dsts)) by (rewrite <- A; apply in_map_iff; exists (id, Cropped w h len); split; [reflexivity|exact I]).
  apply in_map_iff in IN. destruct IN as [[i b] [X J]]. cbn in X. subst i. destruct (B id b J) as (k & M & O & _).
  assert (NDl: NoDup (map fst l)) by (rewrite A; apply (mkeys_nodup dsts None SO)).
  assert (Q: Cropped w h len = outOf W H k).
  { clear -NDl I O. induction l as [|[i o] r IH]; [destruct I|]. cbn [map fst] in NDl. inversion NDl as [|? ? N1 N2]; subst. destruct I as [I|I], O as [O|O].
    - congruence.
    - exfalso. apply N1, in_map_iff. exists (id, outOf W H k). split; [cbn; congruence|exact O].
    - exfalso. apply N1, in_map_iff. exists (id, Cropped w h len). split; [cbn; congruence|exact I].
    - apply IH; assumption. }
  unfold outOf, fits in Q. destruct (Z.ltb_spec 0 (kw k)); cbn [andb] in Q; [|discriminate]. destruct (_ && _); [|discriminate]. injection Q as -> -> ->.
  pose proof (proj2 OK id k M) as [(K & _)|(K1 & K2 & _)]; [lia|]. split; [ring|nia].
Qed.
(** Reconfiguring a crop with the size it has writes fresh memory over the picture it delivered last. *)
Theorem reconfigure_overwrites_output_refuted : forall junk b0 es W H p dsts l s1 id b k x y degree s2, let s := spRun junk es (sp0 b0) in
  msorted dsts -> NoDup (map snd dsts) -> split W H p dsts s = Ok (l, s1) -> In (id, b) dsts -> mfind id (crops s) = Some k -> In (id, Cropped (kw k) (kh k) (kw k * kh k)) l ->
  configCrop junk id (kw k) (kh k) x y degree s1 = (true, s2) ->
  forall px py, 0 <= px < kw k -> 0 <= py < kh k -> bufs s2 b px py = junk px py.
Proof.
  intros junk b0 es W H p dsts l s1 id b k x y degree s2 s SO ND E I M O C px py PX PY. pose proof (spRun_ok junk es _ (sp0_ok b0)) as OK. fold s in OK. destruct (split_spec W H p dsts s l s1 OK SO ND E) as (_ & _ & A & B & _).
  destruct (B id b I) as (k1 & M1 & O1 & _ & T). rewrite M in M1. injection M1 as <-.
  assert (F: fits W H k = true).
  { unfold outOf in O1. destruct (fits W H k); [reflexivity|]. exfalso. assert (NDl: NoDup (map fst l)) by (rewrite A; apply (mkeys_nodup dsts None SO)).
    clear -NDl O O1. induction l as [|[i o] r IH]; [destruct O|]. cbn [map fst] in NDl. inversion NDl as [|? ? N1 N2]; subst. destruct O as [O|O], O1 as [O1|O1].
    - congruence.
    - apply N1, in_map_iff. exists (id, Unused). split; [cbn; congruence|exact O1].
    - apply N1, in_map_iff. eexists (id, _). split; [cbn; congruence|exact O].
    - apply IH; assumption. }
  destruct (T F) as (k' & M' & TG & W' & H'). unfold configCrop in C. rewrite M' in C. destruct (_ || _ || _ || _ || _ || _); [discriminate|]. rewrite W', H', !Z.eqb_refl in C. cbn [andb] in C. rewrite TG in C.
  apply (f_equal snd) in C. cbn [snd] in C. subst s2. cbn [bufs]. unfold setBuf. rewrite Z.eqb_refl. unfold blit.
  destruct (Z.leb_spec 0 px); [|lia]. destruct (Z.ltb_spec px (kw k)); [|lia]. destruct (Z.leb_spec 0 py); [|lia]. destruct (Z.ltb_spec py (kh k)); [|lia]. reflexivity.
Qed.
Example split_case : exists l s', split 640 360 (fun x y => 1000 * y + x) [(1, 10); (2, 20); (3, 30)]
    (spRun (fun _ _ => 0) [SAdd 1; SAdd 2; SAdd 3; SConf 1 320 180 320 180 0; SConf 2 100 100 600 0 0] (sp0 (fun _ _ _ => 0))) = Ok (l, s') /\
  l = [(1, Cropped 320 180 57600); (2, Unused); (3, Unused)] /\ bufs s' 10 0 0 = 180320 /\ bufs s' 10 319 179 = 359639 /\ bufs s' 10 320 0 = 0.
Proof. eexists _, _. split; [reflexivity|]. split; [reflexivity|]. repeat split. Qed.

Print Assumptions mixer_draws_in_layer_order.
Print Assumptions topmost_channel_wins.
Print Assumptions mixer_time_is_latest.
Print Assumptions mixer_time_at_fixed_rate.
Print Assumptions documented_channels_always_mixed_partial.
Print Assumptions top_layer_never_drawn_refuted.
Print Assumptions tiny_channel_throws_refuted.
Print Assumptions channel_right_of_layout_throws_refuted.
Print Assumptions splitter_gives_the_rectangle_partial.
Print Assumptions splitter_never_throws.
Print Assumptions splitter_defined_partial.
Print Assumptions crop_sum_overflows_refuted.
Print Assumptions announced_length_is_a_third_refuted.
Print Assumptions reconfigure_overwrites_output_refuted.
