(** Property C102: the announcement of an AAC stream tells how to decode it. *)
From Coq Require Import Ascii String ZArith List Bool.
From Verif Require Import Base Bytes JsonModel SdpModel AnnModel NalModel NalSpec NalProps AacModel AacSpec AacProofs.
Import ListNotations.
Notation length := List.length.
Local Open Scope list_scope.
Local Open Scope Z_scope.

Lemma line_is pt c : auxLine pt c = formatLine (unsignedText pt) c.
Proof. unfold auxLine, formatLine, aacFmtp. rewrite <- !app_assoc. reflexivity. Qed.

(** Every request for the description of an AAC stream is answered at once: it never waits for the stream. *)
Theorem C102_answered_at_once pt rs : ~ In Waits (answers pt rs newSubsession).
Proof. apply never_waits. Qed.
Print Assumptions C102_answered_at_once.

(** If frames with an ADTS header come while the stream is started for the description, it tells of the last of them: its
    object type, sampling frequency and channels (up to three: aac_channels_refuted); and every later one is the same.
    Missing: frames that come later, and that the five bytes of the text are more than configString has. *)
Theorem C102_tells_partial pt mem before p f pr ch low b4 b5 b6 payload after rs :
  0 <= p < 4 -> 0 <= f < 16 -> 0 <= pr < 2 -> 0 <= ch < 4 -> 0 <= low < 64 ->
  (5 <= length mem)%nat -> Forall noHeader after ->
  exists c, tells c (p + 1) f ch /\
    answers pt ((mem, before ++ (adtsHeader p f pr ch low b4 b5 b6 ++ payload) :: after) :: rs) newSubsession
    = repeat (Line (Some (formatLine (unsignedText pt) c))) (S (length rs)).
Proof.
  intros P F R C L M N.
  destruct (aac_config_decodes_partial [] 0 0 0 p f pr ch low b4 b5 b6 payload P F R C L) as [_ (e & U & D)].
  destruct (deliver_last before _ after e mem M U N) as (m' & DA & CS).
  exists (printed e). split; [exists e; split; [apply (printed_read _ _ U)|exact D]|].
  cbn [answers]. rewrite first_answer. change (list Z) with bytes in *. rewrite DA, CS, later_answers, line_is. reflexivity.
Qed.
Print Assumptions C102_tells_partial.

(** If none comes, it tells whatever was in the memory before: any text at all; and it stays so, whatever frames come later. *)
Theorem C102_before_any_frame_refuted pt c rest fs rs : ~ In NUL c -> Forall noHeader fs ->
  answers pt ((c ++ NUL :: rest, fs) :: rs) newSubsession = repeat (Line (Some (formatLine (unsignedText pt) c))) (S (length rs)).
Proof.
  intros H N. cbn [answers]. rewrite first_answer, (deliverAll_none _ _ N).
  replace (c ++ NUL :: rest) with ((c ++ [NUL]) ++ rest) by (rewrite <- app_assoc; reflexivity).
  rewrite cstring_app; [rewrite later_answers, line_is; reflexivity|].
  intros x I. destruct (Ascii.eqb_spec x NUL) as [->|]; [contradiction|reflexivity].
Qed.
Print Assumptions C102_before_any_frame_refuted.

(** Without an end of a text in that memory it reads past the object. *)
Theorem C102_reads_past_refuted pt mem fs rs : ~ In NUL mem -> Forall noHeader fs ->
  hd_error (answers pt ((mem, fs) :: rs) newSubsession) = Some Wild.
Proof.
  intros H N. cbn [answers]. rewrite first_answer, (deliverAll_none _ _ N), cstring_none; [reflexivity|]. intros c I ->. contradiction.
Qed.
Print Assumptions C102_reads_past_refuted.

(** Every frame with a header makes it write three bytes past configString: there is no harm exactly if the object goes on
    for at least three bytes behind it. *)
Theorem C102_writes_past_refuted pt mem fs f rs : In f fs -> ~ noHeader f ->
  ((hd_error (answers pt ((mem, fs) :: rs) newSubsession) = Some Wild) <-> (length mem < CONFIG_ROOM + 3)%nat).
Proof.
  intros I H. assert (U: exists e, updateConfigString f = Some e).
  { destruct (updateConfigString f) as [e|] eqn:U; [eauto|]. apply refused in U. contradiction. }
  destruct U as [e U]. cbn [answers]. rewrite first_answer. change (CONFIG_ROOM + 3)%nat with 5%nat. split.
  - destruct (Nat.lt_ge_cases (length mem) 5) as [L|L]; [intros _; exact L|]. intros E. exfalso.
    assert (X: exists fs1 g fs2 e', fs = fs1 ++ g :: fs2 /\ updateConfigString g = Some e' /\ Forall noHeader fs2).
    { clear E L. induction fs as [|g fs IH] using rev_ind; [destruct I|]. destruct (updateConfigString g) as [e'|] eqn:G.
      - exists fs, g, [], e'. repeat split; [exact G|constructor].
      - apply in_app_or in I. destruct I as [I|[<-|[]]]; [|congruence]. destruct (IH I) as (a & g' & b & e' & -> & G' & N).
        exists a, g', (b ++ [g]), e'. rewrite <- app_assoc. repeat split; [exact G'|]. apply Forall_app. split; [exact N|].
        constructor; [|constructor]. apply refused. exact G. }
    destruct X as (a & g & b & e' & -> & G & N). destruct (deliver_last a g b e' mem L G N) as (m' & DA & CS).
    change (list Z) with bytes in *. rewrite DA, CS in E. discriminate.
  - intros L. rewrite (deliverAll_short fs mem f e L I U). reflexivity.
Qed.
Print Assumptions C102_writes_past_refuted.

(** A stereo AAC-LC frame at 44100 Hz, announced as 1210; before it, as what was there. *)
Example C102_not_vacuous :
  let frame := [255; 241; 80; 128; 2; 31; 252; 33] in
  frame = adtsHeader 1 4 0 2 0 2 31 252 ++ [33] /\ ~ noHeader frame /\
  hd_error (answers 96 [(repeat NUL 8, [frame])] newSubsession) = Some (Line (Some (formatLine (lit "96") (lit "1210")))) /\
  tells (lit "1210") 2 4 2 /\
  answers 96 [(lit "zz" ++ [NUL], []); (repeat NUL 8, [frame])] newSubsession
  = [Line (Some (formatLine (lit "96") (lit "zz"))); Line (Some (formatLine (lit "96") (lit "zz")))] /\
  hd_error (answers 96 [(repeat NUL 2, [frame])] newSubsession) = Some Wild.
Proof.
  repeat split; try reflexivity.
  - unfold noHeader. cbn. intros [X|[X|X]]; [discriminate|congruence|congruence].
  - exists [18; 16]. split; reflexivity.
Qed.
