(** C27 and C40: the manifest, the segment files and their names. *)
From Coq Require Import Ascii String.
From Verif Require Import Base ZMap Bytes JsonModel CtlModel CtlSpec MpdModel MpdSpec MpdProofs.
Local Open Scope list_scope.
Local Open Scope Z_scope.

(** *** C40. File names. *)

(** Whatever the folder and the base name, two media segments have the same file name only if they are
    the same segment: same stream, same start time, same kind. *)
Theorem segment_names_distinct : forall folder base id ts s id' ts' s',
  int32 id -> int32 id' -> 0 <= ts < 2 ^ 64 -> 0 <= ts' < 2 ^ 64 ->
  getSegmentName folder base id ts (ext s) = getSegmentName folder base id' ts' (ext s') -> id = id' /\ ts = ts' /\ s = s'.
Proof.
  intros folder base id ts s id' ts' s' I I' T T' E. apply segName_inj in E; try assumption. destruct E as (_ & E1 & E2 & E3).
  split; [apply u32_inj; assumption|]. split; assumption.
Qed.
Theorem init_names_distinct : forall folder base id s id' s', int32 id -> int32 id' ->
  getInitSegmentName folder base id (ext s) = getInitSegmentName folder base id' (ext s') -> id = id' /\ s = s'.
Proof.
  intros folder base id s id' s' I I' E. apply initName_inj in E. destruct E as (_ & E1 & E3). split; [apply u32_inj; assumption|assumption].
Qed.
(** Even of different dashers: an initialisation segment, a media segment and a manifest never share a name. *)
Theorem init_never_overwrites_media : forall folder base id ts s folder' base' id' s', 0 <= ts < 2 ^ 64 ->
  getSegmentName folder base id ts (ext s) <> getInitSegmentName folder' base' id' (ext s').
Proof. intros. apply seg_not_init. assumption. Qed.
Theorem manifest_never_overwritten : forall folder base id ts s d,
  getSegmentName folder base id ts (ext s) <> mpdPath d /\ getInitSegmentName folder base id (ext s) <> mpdPath d.
Proof. intros. split; [apply seg_not_mpd|apply init_not_mpd]. Qed.

(** The name that a player makes from the template in the manifest is the name of the file. *)
Lemma expand_plain b t rid time : ~ In "$"%char b -> expand (b ++ t) None rid time = option_map (app b) (expand t None rid time).
Proof.
  induction b as [|c b IH]; intros N; cbn [app]; [destruct (expand t None rid time); reflexivity|]. cbn [expand].
  destruct (ascii_dec c "$"%char) as [->|_]; [exfalso; apply N; left; reflexivity|]. rewrite IH by (intros X; apply N; right; exact X). destruct (expand t None rid time); reflexivity.
Qed.
Theorem template_names_the_file : forall folder base s id ts, ~ In "$"%char base ->
  option_map (app folder) (expand (segTempl s base) None (uintText (u32 id)) (uintText ts)) = Some (getSegmentName folder base id ts (ext s)) /\
  option_map (app folder) (expand (initTempl s base) None (uintText (u32 id)) (uintText ts)) = Some (getInitSegmentName folder base id (ext s)).
Proof.
  intros folder base s id ts N. unfold segTempl, initTempl, getSegmentName, getInitSegmentName.
  generalize (uintText (u32 id)) (uintText ts). intros rid time. split.
  - rewrite expand_plain by exact N. replace (expand (lit "_$RepresentationID$_$Time$" ++ ext s) None rid time) with (Some (lit "_" ++ rid ++ lit "_" ++ time ++ ext s)); [reflexivity|]. destruct s; reflexivity.
  - rewrite expand_plain by exact N. replace (expand (lit "_$RepresentationID$_init" ++ ext s) None rid time) with (Some (lit "_" ++ rid ++ lit "_init" ++ ext s)); [reflexivity|]. destruct s; reflexivity.
Qed.
Example name_case : getSegmentName (lit "/tmp/") (lit "cam") 3 4000000 (ext V) = lit "/tmp/cam_3_4000000.m4v" /\
  expand (segTempl V (lit "cam")) None (lit "3") (lit "4000000") = Some (lit "cam_3_4000000.m4v").
Proof. split; reflexivity. Qed.
(** With a dollar sign in the base name the template names another file. *)
Theorem dollar_in_base_name_refuted : exists base, expand (segTempl V base) None (lit "3") (lit "5") <> Some (getSegmentName [] base 3 5 (ext V)).
Proof. exists (lit "a$$b"). vm_compute. discriminate. Qed.

(** *** C27. The manifest of a dasher and the files on disk. *)

(** A dasher that is set up in any way (configured any number of times, streams added and removed) and
    then receives any rounds of frames. [log] is what was published on a side. *)
Definition rounds (rs : list roundIn) (d : dasher) : dasher := run (map (fun r => ORound (fst r) (snd r)) rs) d.
Lemma rounds_fold rs : forall d, rounds rs d = fold_left (fun d r => round (fst r) (snd r) d) rs d.
Proof. induction rs as [|r rs IH]; intros d; [reflexivity|]. unfold rounds, run in *. cbn [map fold_left step]. apply IH. Qed.
Definition history (ops : list op) (rs : list roundIn) (junk : Z) (d0 d : dasher) (m : manager) (log : side -> list publication) : Prop :=
  Forall quiet ops /\ d0 = run ops (newDasher junk) /\ mgr d0 = Some m /\ (forall s, Forall int32 (mkeys (slotsOf s d0))) /\
  d = rounds rs d0 /\ publications (mkeys (vslots d0)) (mkeys (aslots d0)) rs nothing nothing = (log V, log A).

Lemma history_inv ops rs junk d0 d m log : history ops rs junk d0 d m log -> (forall s, cond (log s)) ->
  exists w, Inv (basePath d0) (baseName d0) (Z.to_nat (maxSeg m)) (fun s => mkeys (slotsOf s d0)) log w d.
Proof.
  intros (Q & E0 & M & I32 & E & P) C.
  assert (S0: Setup d0) by (rewrite E0; apply setup_run; [exact Q|apply setup_new]).
  pose proof (setup_inv d0 m S0 M) as I0. destruct (q_mgr _ S0 m M) as [M2 _].
  destruct (rounds_inv (basePath d0) (baseName d0) (Z.to_nat (maxSeg m)) (fun s => mkeys (slotsOf s d0)) ltac:(lia) (fun s => keys_inc d0 s (q_sorted _ S0 s)) I32 rs _ _ d0 (log V) (log A) I0 P (C V) (C A)) as [w I].
  exists w. rewrite E, rounds_fold. destruct I as [(m1 & A1 & A2 & A3 & A4 & A5) B1 B2 B3 B4 B5]. constructor; try assumption.
  - exists m1. do 2 (split; [assumption|]). split; [intros []; [apply (A3 V)|apply (A3 A)]|]. split; [assumption|]. intros [s X]. apply A5. exists s. destruct s; exact X.
  - intros s id ts Ii T. destruct s; [apply (B5 V id ts Ii T)|apply (B5 A id ts Ii T)].
Qed.

(** The manifest on disk lists exactly the newest publications, in order, and the segment files of each
    stream are exactly those listed, with their bytes. Start times must be distinct and must not be 0. *)
Theorem manifest_and_files_agree_partial : forall ops rs junk d0 d m log, history ops rs junk d0 d m log ->
  (forall s, NoDup (map pts (log s)) /\ Forall (fun p => 0 < pts p < 2 ^ 64) (log s)) ->
  forall s, let shown := lastn (Z.to_nat (maxSeg m)) (log s) in
  (log s <> [] -> exists m' x, fget (mpdPath d0) (files d) = Some (Manifest m') /\ setOf s m' = Some x /\ timeline x = map (fun p => (pts p, pdur p)) shown) /\
  forall id ts, In id (mkeys (slotsOf s d0)) -> 0 <= ts < 2 ^ 64 ->
    fget (getSegmentName (basePath d0) (baseName d0) id ts (ext s)) (files d) =
    match at_ ts shown with Some p => option_map Data (dataOf id p) | None => None end.
Proof.
  intros ops rs junk d0 d m log H C s shown. destruct (history_inv _ _ _ _ _ _ _ H) as [w I].
  { intros t. destruct (C t) as [C1 C2]. split; [exact C1|]. eapply Forall_impl; [|exact C2]. cbn beta. change (2 ^ 64) with 18446744073709551616. intros; lia. }
  split.
  - intros NE. destruct (i_mgr _ _ _ _ _ _ _ I) as (m1 & A1 & A2 & A3 & A4 & A5). destruct (A5 (ex_intro _ s NE)) as (m' & F & T).
    assert (EP: mpdPath d = mpdPath d0) by (unfold mpdPath; rewrite (i_path _ _ _ _ _ _ _ I), (i_name _ _ _ _ _ _ _ I); reflexivity). rewrite EP in F.
    specialize (T s). rewrite A3 in T. unfold tl_ in T. exists m'. destruct (setOf s m') as [x|]; [exists x; split; [exact F|split; [reflexivity|exact T]]|].
    exfalso. symmetry in T. apply map_eq_nil in T. destruct (log s) as [|p l] eqn:EL; [congruence|]. apply (f_equal (@List.length publication)) in T. rewrite lastn_length in T. cbn [List.length] in T.
    destruct H as (Q & E0 & M & _). assert (S0: Setup d0) by (rewrite E0; apply setup_run; [exact Q|apply setup_new]). destruct (q_mgr _ S0 m M). lia.
  - intros id ts Ii T. rewrite (i_files _ _ _ _ _ _ _ I s id ts Ii T). unfold kept. replace (filter (fun p => pts p =? 0) (log s)) with (@nil publication); [rewrite app_nil_r; reflexivity|].
    destruct (C s) as [_ C2]. clear -C2. induction (log s) as [|p l IH]; [reflexivity|]. inversion C2 as [|? ? C3 C4]; subst. cbn [filter]. destruct (Z.eqb_spec (pts p) 0); [lia|]. apply IH, C4.
Qed.

(** Times are counted from the first frame, so the first segment of a presentation starts at 0; its files
    are never deleted. *)
Theorem first_segment_never_deleted_refuted : forall ops rs junk d0 d m log, history ops rs junk d0 d m log ->
  (forall s, NoDup (map pts (log s)) /\ Forall (fun p => 0 <= pts p < 2 ^ 64) (log s)) ->
  forall s p id, In p (log s) -> pts p = 0 -> In id (mkeys (slotsOf s d0)) ->
  fget (getSegmentName (basePath d0) (baseName d0) id 0 (ext s)) (files d) = option_map Data (dataOf id p).
Proof.
  intros ops rs junk d0 d m log H C s p id Ip P0 Ii. destruct (history_inv _ _ _ _ _ _ _ H) as [w I]; [intros t; apply (C t)|].
  rewrite (i_files _ _ _ _ _ _ _ I s id 0 Ii) by lia. rewrite (at_some 0 _ p); [reflexivity| | |exact P0].
  - intros a b Ia Ib. apply (pts_inj (log s)); [apply (C s)|apply (kept_incl (Z.to_nat (maxSeg m))), Ia|apply (kept_incl (Z.to_nat (maxSeg m))), Ib].
  - apply in_or_app. right. apply filter_In. split; [exact Ip|]. rewrite P0. reflexivity.
Qed.

(** One camera with sound: four segments, a window of two. *)
Definition setupOps : list op := [OConfigure (lit "/tmp") (lit "cam") 4 2 8 true; OAdd V 1; OAdd A 2].
Definition camRounds : list roundIn :=
  map (fun k => ([mkGiven 1 (if k =? 1 then Some [9] else None) (Some (k * 100, 100, [k; k]))], fun id => if id =? 2 then Some (k * 100 + 7, 96, [k]) else None)) [1; 2; 3; 4].
Definition camLog (s : side) : list publication := match s with
  | V => map (fun k => mkPub (k * 100) 100 [(1, [k; k])]) [1; 2; 3; 4] | A => map (fun k => mkPub (k * 100 + 7) 96 [(2, [k])]) [1; 2; 3; 4] end.
Definition camD0 : dasher := run setupOps (newDasher 0).
Definition camM : manager := configureM 8 2 4 newManager.
Example camera_history : history setupOps camRounds 0 camD0 (rounds camRounds camD0) camM camLog /\
  (forall s, NoDup (map pts (camLog s)) /\ Forall (fun p => 0 < pts p < 2 ^ 64) (camLog s)) /\
  fget (lit "/tmp/cam_1_400.m4v") (files (rounds camRounds camD0)) = Some (Data [4; 4]) /\ fget (lit "/tmp/cam_1_200.m4v") (files (rounds camRounds camD0)) = None /\
  fget (lit "/tmp/cam_2_307.m4a") (files (rounds camRounds camD0)) = Some (Data [3]) /\ fget (lit "/tmp/cam_1_init.m4v") (files (rounds camRounds camD0)) = Some (Data [9]).
Proof.
  split; [|split].
  - split; [repeat constructor|]. split; [reflexivity|]. split; [reflexivity|]. split; [|split; reflexivity].
    intros []; repeat constructor; discriminate.
  - intros []; (split; [repeat constructor; cbn; intuition discriminate|repeat constructor]).
  - repeat split; vm_compute; reflexivity.
Qed.

(** The window length asked for is the one in use, but at least two. *)
Theorem window_length : forall folder base du ms mb w d d', configure folder base du ms mb w d = (true, d') -> exists m, mgr d' = Some m /\ maxSeg m = Z.max 2 ms.
Proof.
  intros folder base du ms mb w d d'. unfold configure. destruct w; [|discriminate]. cbn [negb]. destruct base as [|c b]; [discriminate|]. destruct (du =? 0); [discriminate|].
  intros E. injection E as <-. cbn [mgr]. eexists. split; [reflexivity|]. unfold configureM, MIN_SEGMENT. cbv zeta. cbn [maxSeg]. destruct (Z.leb_spec 2 ms); lia.
Qed.

(** *** Publishing and resizing in any order: the list of the manifest is the window. *)
Definition mstep (s : side) (o : mop) (m : manager) : option Z * manager :=
  match o with Publish t du => let '(r, m) := updateAdaptationSetTimestamp s t du m in (Some r, m) | Resize mb ms du => (None, configureM mb ms du m) end.
Fixpoint mrun (s : side) (ops : list mop) (m : manager) : manager * list Z :=
  match ops with
  | [] => (m, [])
  | o :: r => let '(x, m) := mstep s o m in let '(m', l) := mrun s r m in (m', match x with Some v => v :: l | None => l end)
  end.
Lemma pop_general n : forall l r, (1 <= n)%nat -> popFront (Z.of_nat n) l r = (last (map fst (firstn (length l - (n - 1)) l)) r, lastn (n - 1) l).
Proof.
  induction l as [|x l IH]; intros r N; [reflexivity|]. cbn [popFront]. destruct (Z.leb_spec (Z.of_nat n) (Z.of_nat (length (x :: l)))) as [H|H].
  - rewrite IH by exact N. cbn [length] in *. replace (S (length l) - (n - 1))%nat with (S (length l - (n - 1))) by lia. cbn [firstn map]. f_equal.
    + destruct (map fst (firstn (length l - (n - 1)) l)) as [|y q] eqn:E; [reflexivity|]. cbn [last]. assert (G: forall (q : list Z) y a b, last (y :: q) a = last (y :: q) b) by (clear; induction q as [|z q IH]; intros y a b; [reflexivity|exact (IH z a b)]). apply G.
    + unfold lastn. cbn [length]. replace (S (length l) - (n - 1))%nat with (S (length l - (n - 1))) by lia. reflexivity.
  - cbn [length] in *. replace (S (length l) - (n - 1))%nat with 0%nat by lia. unfold lastn. cbn [length]. replace (S (length l) - (n - 1))%nat with 0%nat by lia. reflexivity.
Qed.
Lemma setOf_same s x m : setOf s (putSet s x m) = Some x.
Proof. destruct s; reflexivity. Qed.
Lemma slide_pop n l t : (1 <= n)%nat -> popFront (Z.of_nat n) l 0 = (last (snd (slide n l t)) 0, lastn (n - 1) l) /\ fst (slide n l t) = lastn (n - 1) l ++ [t].
Proof.
  intros N. unfold slide. cbn [fst snd]. rewrite app_length. cbn [length]. rewrite pop_general by exact N. split.
  - f_equal. f_equal. f_equal. replace (length l + 1 - n)%nat with (length l - (n - 1))%nat by lia. rewrite firstn_app. replace (length l - (n - 1) - length l)%nat with 0%nat by lia. cbn [firstn]. rewrite app_nil_r. reflexivity.
  - unfold lastn. rewrite app_length. cbn [length]. replace (length l + 1 - n)%nat with (length l - (n - 1))%nat by lia. rewrite skipn_app. replace (length l - (n - 1) - length l)%nat with 0%nat by lia. reflexivity.
Qed.

(** After any history the list is the window, and each publication reports the newest entry that left. *)
Theorem manifest_is_the_window : forall s ops m x, setOf s m = Some x -> 2 <= maxSeg m ->
  let '(m', reports) := mrun s ops m in
  let '(w, outs) := windows (Z.to_nat (maxSeg m)) (timeline x) ops in
  exists y, setOf s m' = Some y /\ timeline y = w /\ reprs y = reprs x /\ reports = map (fun out => last out 0) outs.
Proof.
  intros s ops. induction ops as [|o ops IH]; intros m x X N; cbn [mrun windows].
  - exists x. repeat split. exact X.
  - destruct o as [t du|mb ms du]; cbn [mstep].
    + destruct (slide_pop (Z.to_nat (maxSeg m)) (timeline x) (t, du) ltac:(lia)) as [SP1 SP2]. rewrite Z2Nat.id in SP1 by lia.
      unfold updateAdaptationSetTimestamp, updateTimestamp. rewrite X, SP1. destruct (slide (Z.to_nat (maxSeg m)) (timeline x) (t, du)) as [w' out]. cbn [fst snd] in SP2 |- *. rewrite <- SP2.
      specialize (IH (putSet s (mkSet w' (reprs x)) m) (mkSet w' (reprs x)) (setOf_same _ _ _)).
      replace (maxSeg (putSet s (mkSet w' (reprs x)) m)) with (maxSeg m) in IH by (destruct s; reflexivity). specialize (IH N). cbn [timeline reprs] in IH.
      destruct (mrun s ops (putSet s (mkSet w' (reprs x)) m)) as [m' reports]. destruct (windows (Z.to_nat (maxSeg m)) w' ops) as [w outs].
      destruct IH as (y & Y1 & Y2 & Y3 & Y4). exists y. repeat split; try assumption. cbn [map]. rewrite Y4. reflexivity.
    + specialize (IH (configureM mb ms du m) x). destruct (configureM_ok mb ms du m) as [C1 C2]. rewrite C2 in IH. specialize (IH X C1).
      replace (maxSeg (configureM mb ms du m)) with (Z.max 2 ms) in IH by (unfold configureM, MIN_SEGMENT; cbv zeta; cbn [maxSeg]; destruct (Z.leb_spec 2 ms); lia).
      destruct (mrun s ops (configureM mb ms du m)) as [m' reports]. destruct (windows (Z.to_nat (Z.max 2 ms)) (timeline x) ops) as [w outs]. exact IH.
Qed.

(** The window: never more than its length after a publication, always a suffix of what was published. *)
Fixpoint published (ops : list mop) : list (Z * Z) := match ops with [] => [] | Publish t du :: r => (t, du) :: published r | Resize _ _ _ :: r => published r end.
Theorem window_is_newest : forall ops n w0, let '(w, outs) := windows n w0 ops in
  w0 ++ published ops = firstn (length (concat outs)) (w0 ++ published ops) ++ w /\ map fst (w0 ++ published ops) = concat outs ++ map fst w.
Proof.
  induction ops as [|o ops IH]; intros n w0; cbn [windows].
  - cbn [published concat List.length firstn app]. rewrite !app_nil_r. split; reflexivity.
  - assert (G: forall (l w : list (Z * Z)) outs, map fst l = outs ++ map fst w -> (exists p, l = p ++ w) -> l = firstn (length outs) l ++ w).
    { intros l w outs E [p P]. subst l. rewrite map_app in E. apply app_inv_tail in E. rewrite <- E, map_length. rewrite firstn_app, firstn_all, Nat.sub_diag. cbn [firstn]. rewrite app_nil_r. reflexivity. }
    destruct o as [t du|mb ms du].
    + destruct (slide n w0 (t, du)) as [w' out] eqn:SL. specialize (IH n w'). destruct (windows n w' ops) as [w outs]. destruct IH as [I1 I2]. cbn [published concat].
      unfold slide in SL. injection SL as E1 E2.
      assert (SPL: w0 ++ (t, du) :: published ops = firstn (length (w0 ++ [(t, du)]) - n) (w0 ++ [(t, du)]) ++ w' ++ published ops).
      { rewrite <- E1. unfold lastn. rewrite app_assoc, firstn_skipn, <- app_assoc. reflexivity. }
      assert (M: map fst (w0 ++ (t, du) :: published ops) = (out ++ concat outs) ++ map fst w) by (rewrite SPL, map_app, E2, I2, app_assoc; reflexivity).
      split; [|exact M]. apply G; [exact M|]. exists (firstn (length (w0 ++ [(t, du)]) - n) (w0 ++ [(t, du)]) ++ firstn (length (concat outs)) (w' ++ published ops)). rewrite SPL at 1. rewrite I1 at 1. rewrite app_assoc. reflexivity.
    + apply IH.
Qed.

(** While the window is not made smaller, each entry that leaves is reported once, in order (an entry
    with time 0 cannot be told from "nothing"). *)
Theorem leavers_reported_partial : forall s ops m x, setOf s m = Some x -> 2 <= maxSeg m -> Z.of_nat (length (timeline x)) <= maxSeg m -> growing (maxSeg m) ops ->
  let '(m', reports) := mrun s ops m in let '(w, outs) := windows (Z.to_nat (maxSeg m)) (timeline x) ops in
  filter (fun t => negb (t =? 0)) reports = filter (fun t => negb (t =? 0)) (concat outs).
Proof.
  intros s ops m x X N L G. pose proof (manifest_is_the_window s ops m x X N) as W. destruct (mrun s ops m) as [m' reports].
  destruct (windows (Z.to_nat (maxSeg m)) (timeline x) ops) as [w outs] eqn:EW. destruct W as (y & _ & _ & _ & ->).
  assert (H: Forall (fun out => (length out <= 1)%nat) outs).
  { clear m' y X s. revert G L EW. generalize (timeline x) as w0. clear x. revert N. generalize (maxSeg m) as n. clear m. revert w outs. induction ops as [|o ops IH]; intros w outs n N w0 G L EW; cbn [windows] in EW.
    - injection EW as _ <-. constructor.
    - destruct o as [t du|mb ms du].
      + destruct (slide (Z.to_nat n) w0 (t, du)) as [w' out] eqn:SL. destruct (windows (Z.to_nat n) w' ops) as [w2 outs2] eqn:EW2. injection EW as _ <-. unfold slide in SL. injection SL as E1 E2. constructor.
        * rewrite <- E2, map_length, firstn_length, app_length. cbn [length]. lia.
        * apply (IH w2 outs2 n N w' G); [|exact EW2]. rewrite <- E1, lastn_length, app_length. cbn [length]. lia.
      + destruct G as [G1 G2]. apply (IH w outs (Z.max 2 ms) ltac:(lia) w0 G2); [lia|exact EW]. }
  clear -H. induction H as [|out outs H _ IH]; [reflexivity|]. cbn [map concat]. rewrite filter_app, <- IH. destruct out as [|a [|b out]]; [reflexivity| |cbn in H; lia].
  cbn [last filter]. destruct (negb (a =? 0)); reflexivity.
Qed.
(** Made smaller, the list loses several at once but reports only one: the files of the others stay. *)
Theorem shrunk_window_leaves_files_refuted : forall s x a b c, let m := mkMgr 3 0 (Some x) (Some x) in
  timeline x = [(a, 1); (b, 1); (c, 1)] -> forall t du mb, snd (mrun s [Resize mb 2 du; Publish t 1] m) = [b] /\
  exists y, setOf s (fst (mrun s [Resize mb 2 du; Publish t 1] m)) = Some y /\ timeline y = [(c, 1); (t, 1)].
Proof. intros s x a b c m T t du mb. unfold m. destruct x as [tl rp]. cbn in T. subst tl. destruct s; (split; [reflexivity|]); eexists; (split; [reflexivity|reflexivity]). Qed.
Example window_case : let m := mkMgr 2 0 (Some (mkSet [] [lit "1"])) None in
  growing 2 [Publish 5 5; Publish 10 5; Publish 15 5; Resize 0 3 5; Publish 20 5; Publish 25 5] /\
  snd (mrun V [Publish 5 5; Publish 10 5; Publish 15 5; Resize 0 3 5; Publish 20 5; Publish 25 5] m) = [0; 0; 5; 0; 10].
Proof. split; [cbn; lia|reflexivity]. Qed.

(** A stream added after segments were published: the manifest offers segments that it has no files of. *)
Definition lateOps : list op := setupOps ++ map (fun r => ORound (fst r) (snd r)) (firstn 2 camRounds) ++ [OAdd V 3; ORound [mkGiven 1 None (Some (300, 100, [3])); mkGiven 3 None (Some (300, 100, [7]))] (fun _ => None)].
Theorem late_stream_misses_files_refuted : let d := run lateOps (newDasher 0) in
  exists m x, fget (lit "/tmp/cam.mpd") (files d) = Some (Manifest m) /\ setOf V m = Some x /\ In (lit "3") (reprs x) /\ In (200, 100) (timeline x) /\
  fget (lit "/tmp/cam_3_200.m4v") (files d) = None.
Proof. eexists _, _. split; [vm_compute; reflexivity|]. split; [reflexivity|]. split; [left; reflexivity|]. split; [left; reflexivity|vm_compute; reflexivity]. Qed.
(** Two streams: a segment completed while another still waits is lost. *)
Theorem waiting_segment_lost_refuted : publications [1; 3] [] [([mkGiven 1 None (Some (100, 100, [1]))], fun _ => None); ([mkGiven 1 None (Some (200, 100, [2])); mkGiven 3 None (Some (100, 100, [9]))], fun _ => None)] nothing nothing
  = ([mkPub 200 100 [(1, [2]); (3, [9])]], []).
Proof. reflexivity. Qed.

Print Assumptions segment_names_distinct.
Print Assumptions init_names_distinct.
Print Assumptions init_never_overwrites_media.
Print Assumptions manifest_never_overwritten.
Print Assumptions template_names_the_file.
Print Assumptions dollar_in_base_name_refuted.
Print Assumptions manifest_and_files_agree_partial.
Print Assumptions first_segment_never_deleted_refuted.
Print Assumptions window_length.
Print Assumptions manifest_is_the_window.
Print Assumptions window_is_newest.
Print Assumptions leavers_reported_partial.
Print Assumptions shrunk_window_leaves_files_refuted.
Print Assumptions late_stream_misses_files_refuted.
Print Assumptions waiting_segment_lost_refuted.
