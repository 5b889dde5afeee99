(** The box parser reads what the writer wrote. *)
From Coq Require Import String.
From Verif Require Import Base Bytes IsoModel IsoSpec.
Local Open Scope list_scope.
Local Open Scope Z_scope.

Definition tagOk (ty : string) : Prop := length (tag ty) = 4%nat.

Inductive gram : bytes -> list box -> Prop :=
| g_nil : gram [] []
| g_leaf ty body rest bs n : tagOk ty -> headerOf (tag ty) = None -> n = 8 + len body -> n < 4294967296 -> gram rest bs ->
    gram (be 4 n ++ tag ty ++ body ++ rest) (Leaf (tag ty) body :: bs)
| g_node ty hdr inner ch rest bs n : tagOk ty -> headerOf (tag ty) = Some (length hdr) -> n = 8 + len (hdr ++ inner) -> n < 4294967296 ->
    gram inner ch -> gram rest bs -> gram (be 4 n ++ tag ty ++ (hdr ++ inner) ++ rest) (Node (tag ty) hdr ch :: bs).

Lemma app3_assoc (A : Type) (a b c d : list A) : (a ++ b ++ c) ++ d = a ++ b ++ c ++ d.
Proof. rewrite <- !app_assoc. reflexivity. Qed.
Lemma len_be n z : len (be n z) = Z.of_nat n.
Proof. unfold len. rewrite be_length. reflexivity. Qed.

(** One step of the parser on a box. *)
Lemma parse_step f ty body rest n :
  tagOk ty -> n = 8 + len body -> n < 4294967296 ->
  parseBoxes (S f) (be 4 n ++ tag ty ++ body ++ rest) =
  match (match headerOf (tag ty) with
         | None => Some (Leaf (tag ty) body)
         | Some h => if len body <? Z.of_nat h then None
                     else match parseBoxes f (skipn h body) with
                          | Some ch => Some (Node (tag ty) (firstn h body) ch)
                          | None => None
                          end
         end), parseBoxes f rest with
  | Some b, Some r => Some (b :: r)
  | _, _ => None
  end.
Proof.
  intros K N M. unfold tagOk in K. pose proof (len_nonneg body) as P.
  set (l := be 4 n ++ tag ty ++ body ++ rest).
  assert (L0: len l = 8 + len body + len rest).
  { unfold l. rewrite !len_app, len_be. unfold len at 1. rewrite K. lia. }
  assert (F4: firstn 4 l = be 4 n) by (apply firstn_app_len, be_length).
  assert (F4': rd (firstn 4 l) = n) by (rewrite F4; apply rd_be_id; change (256 ^ Z.of_nat 4) with 4294967296; lia).
  assert (TY: sub 4 4 l = tag ty) by (apply sub_app; [apply be_length|exact K]).
  assert (PL: sub 8 (Z.to_nat n - 8) l = body).
  { unfold l. rewrite app_assoc. apply sub_app.
    - rewrite app_length, be_length, K. reflexivity.
    - unfold len in N. lia. }
  assert (SK: skipn (Z.to_nat n) l = rest).
  { unfold l. replace (be 4 n ++ tag ty ++ body ++ rest) with ((be 4 n ++ tag ty ++ body) ++ rest) by (rewrite <- !app_assoc; reflexivity).
    apply skipn_app_len. rewrite !app_length, be_length, K. unfold len in N. lia. }
  assert (NE: l <> []) by (intros E; rewrite E in L0; pose proof (len_nonneg rest); change (len []) with 0 in L0; lia).
  destruct l as [|x l'] eqn:EL; [congruence|]. rewrite <- EL in *. cbn [parseBoxes]. rewrite EL. rewrite <- EL. cbv zeta.
  rewrite F4', TY, PL, SK.
  pose proof (len_nonneg rest).
  destruct (Z.ltb_spec (len l) 8); [lia|]. destruct (Z.ltb_spec n 8); [lia|]. destruct (Z.ltb_spec (len l) n); [lia|].
  cbn [orb]. reflexivity.
Qed.

Lemma gram_parse l bs : gram l bs -> forall f, (length l <= f)%nat -> parseBoxes f l = Some bs.
Proof.
  induction 1 as [|ty body rest bs n K H N M G IH|ty hdr inner ch rest bs n K H N M G1 IH1 G2 IH2]; intros f L.
  - destruct f; reflexivity.
  - assert (K' := K). unfold tagOk in K'. rewrite !app_length, be_length, K' in L. destruct f as [|f]; [lia|].
    rewrite parse_step by assumption. rewrite H, IH by lia. reflexivity.
  - assert (K' := K). unfold tagOk in K'. rewrite !app_length, be_length, K' in L. destruct f as [|f]; [lia|].
    rewrite parse_step by assumption. rewrite H, IH2 by lia.
    rewrite len_app. destruct (Z.ltb_spec (len hdr + len inner) (Z.of_nat (length hdr))) as [C|_].
    { pose proof (len_nonneg inner). unfold len in *. lia. }
    rewrite skipn_app_len by reflexivity. rewrite firstn_app_len by reflexivity. rewrite IH1 by lia. reflexivity.
Qed.
Lemma gram_file l bs : gram l bs -> parseFile l = Some bs.
Proof. intros G. apply (gram_parse _ _ G). lia. Qed.

(** The writer's two ways of making a box. *)
Lemma gram_counted ty body rest bs : tagOk ty -> headerOf (tag ty) = None -> 8 + len body < 4294967296 -> gram rest bs ->
  gram (counted ty body ++ rest) (Leaf (tag ty) body :: bs).
Proof. intros K H M G. unfold counted. rewrite app3_assoc. apply g_leaf; try assumption; lia. Qed.
Lemma gram_sized n ty body rest bs : tagOk ty -> headerOf (tag ty) = None -> n = 8 + len body -> n < 4294967296 -> gram rest bs ->
  gram (sized n ty body ++ rest) (Leaf (tag ty) body :: bs).
Proof. intros K H N M G. unfold sized. rewrite app3_assoc. apply g_leaf; try assumption; lia. Qed.
Lemma gram_container ty hdr inner ch rest bs : tagOk ty -> headerOf (tag ty) = Some (length hdr) -> 8 + len (hdr ++ inner) < 4294967296 ->
  gram inner ch -> gram rest bs -> gram (counted ty (hdr ++ inner) ++ rest) (Node (tag ty) hdr ch :: bs).
Proof. intros K H M G1 G2. unfold counted. rewrite app3_assoc. apply g_node; try assumption; lia. Qed.
Lemma gram_container0 ty inner ch rest bs : tagOk ty -> headerOf (tag ty) = Some 0%nat -> 8 + len inner < 4294967296 ->
  gram inner ch -> gram rest bs -> gram (counted ty inner ++ rest) (Node (tag ty) [] ch :: bs).
Proof. intros K H M G1 G2. apply (gram_container ty [] inner); assumption. Qed.

Lemma len_counted ty body : tagOk ty -> len (counted ty body) = 8 + len body.
Proof. intros K. unfold counted. rewrite !len_app, len_be. unfold len at 1. rewrite K. lia. Qed.
Lemma len_sized n ty body : tagOk ty -> len (sized n ty body) = 8 + len body.
Proof. intros K. unfold sized. rewrite !len_app, len_be. unfold len at 1. rewrite K. lia. Qed.
Lemma len_zeros n : len (zeros n) = Z.of_nat n.
Proof. unfold len, zeros. rewrite repeat_length. reflexivity. Qed.
Lemma len_cons x l : len (x :: l) = 1 + len l.
Proof. unfold len. cbn [length]. lia. Qed.
Lemma len_nil : len [] = 0.
Proof. reflexivity. Qed.

(** Last box of a sequence: no rest. *)
Lemma gram_end l bs : gram (l ++ []) bs -> gram l bs.
Proof. rewrite app_nil_r. auto. Qed.

Lemma gram_app a x : gram a [x] -> forall b y, gram b y -> gram (a ++ b) (x :: y).
Proof.
  intros G b y Gb. inversion G as [|ty body rest bs n K H N M G' E1 E2|ty hdr inner ch rest bs n K H N M G1 G' E1 E2]; subst.
  - inversion G'; subst. rewrite app_nil_r. rewrite app3_assoc. apply g_leaf; auto.
  - inversion G'; subst. rewrite app_nil_r. rewrite app3_assoc. apply g_node; auto.
Qed.
Lemma one_counted ty body : tagOk ty -> headerOf (tag ty) = None -> 8 + len body < 4294967296 -> gram (counted ty body) [Leaf (tag ty) body].
Proof. intros. apply gram_end. apply gram_counted; auto. constructor. Qed.
Lemma one_sized n ty body : tagOk ty -> headerOf (tag ty) = None -> n = 8 + len body -> n < 4294967296 -> gram (sized n ty body) [Leaf (tag ty) body].
Proof. intros. apply gram_end. apply gram_sized; auto. constructor. Qed.
Lemma one_container ty hdr inner ch : tagOk ty -> headerOf (tag ty) = Some (length hdr) -> 8 + len (hdr ++ inner) < 4294967296 ->
  gram inner ch -> gram (counted ty (hdr ++ inner)) [Node (tag ty) hdr ch].
Proof. intros. apply gram_end. apply gram_container; auto. constructor. Qed.
Lemma one_container0 ty inner ch : tagOk ty -> headerOf (tag ty) = Some 0%nat -> 8 + len inner < 4294967296 ->
  gram inner ch -> gram (counted ty inner) [Node (tag ty) [] ch].
Proof. intros. apply gram_end. apply gram_container0; auto. constructor. Qed.

(** Length of a fixed part, by computation. *)
Lemma len_matrix a b c d x y : len (write_matrix a b c d x y) = 36.
Proof. reflexivity. Qed.
Lemma len_mvhd : len write_mvhd = 108. Proof. reflexivity. Qed.
Lemma len_ftyp : len write_ftyp = 28. Proof. reflexivity. Qed.
Lemma len_trex c : len (write_trex c) = 32. Proof. reflexivity. Qed.
Lemma len_mvex c : len (write_mvex c) = 40. Proof. reflexivity. Qed.
Lemma len_tkhd m c : len (write_tkhd m c) = 92. Proof. destruct m; reflexivity. Qed.
Lemma len_mdhd c : len (write_mdhd c) = 32. Proof. reflexivity. Qed.
Lemma len_hdlr m : len (write_hdlr m) = 45. Proof. destruct m; reflexivity. Qed.
Lemma len_dinf : len write_dinf = 36. Proof. reflexivity. Qed.
Lemma len_dref : len write_dref = 28. Proof. reflexivity. Qed.
Lemma len_mh m : len (if isVideo m then write_vmhd else write_smhd) = if isVideo m then 20 else 16. Proof. destruct m; reflexivity. Qed.
Lemma len_visual c : len (visualEntry c) = 78. Proof. reflexivity. Qed.
Lemma len_tables : len (write_stts ++ write_stsc ++ write_stsz ++ write_stco) = 68. Proof. reflexivity. Qed.

(** *** The tree of the initialisation segment *)
Definition lf (ty : string) (b : bytes) : box := Leaf (tag ty) b.
Definition nd (ty : string) (h : bytes) (c : list box) : box := Node (tag ty) h c.

Definition mvhdBody : bytes :=
  zeros 4 ++ zeros 4 ++ zeros 4 ++ be 4 1000 ++ zeros 4 ++ be 4 65536 ++ be 2 256 ++ zeros 2 ++ zeros 4 ++ zeros 4 ++
                  write_matrix 1 0 0 1 0 0 ++ zeros 24 ++ be 4 1.
Definition trexBody (c : ctx) : bytes := zeros 4 ++ be 4 1 ++ be 4 1 ++ be 4 (csampledur c) ++ zeros 4 ++ zeros 4.
Definition tkhdBody (m : media) (c : ctx) : bytes :=
  zeros 1 ++ zeros 1 ++ be 2 15 ++ zeros 4 ++ zeros 4 ++ be 4 1 ++ zeros 4 ++ zeros 4 ++ zeros 12 ++
                  (if isVideo m then be 2 0 else be 2 256) ++ zeros 2 ++ write_matrix 1 0 0 1 0 0 ++
                  (if isVideo m then be 4 (cwidth c * 65536) ++ be 4 (cheight c * 65536) else zeros 4 ++ zeros 4).
Definition mdhdBody (c : ctx) : bytes := zeros 4 ++ zeros 4 ++ zeros 4 ++ be 4 (ctimebase c) ++ zeros 4 ++ be 2 5575 ++ zeros 2.
Definition hdlrBody (m : media) : bytes :=
  zeros 4 ++ zeros 4 ++ (if isVideo m then tag "vide" else tag "soun") ++ zeros 12 ++
                  (if isVideo m then tag "VideoHandler" ++ [0] else tag "SoundHandler" ++ [0]).
Definition audioEntry (c : ctx) : bytes :=
  zeros 4 ++ zeros 2 ++ be 2 1 ++ zeros 4 ++ zeros 4 ++ be 2 (cchannels c) ++ be 2 (cbits c) ++ zeros 4 ++
                  be 2 (ctimebase c) ++ be 2 (crate c).
Definition esdsBody (c : ctx) : bytes :=
  let n := len (cconfig c) in
  zeros 4 ++ [3; (23 + n) mod 128] ++ be 2 1 ++ [0] ++ [4; (15 + n) mod 128] ++ [64] ++ [21] ++ zeros 2 ++ zeros 1 ++
                  be 4 127313 ++ be 4 127309 ++ [5; n mod 128] ++ cconfig c ++ [6; 1; 2].
Definition entryTree (m : media) (c : ctx) : box :=
  match m with
  | VIDEO_AVC => nd "avc1" (visualEntry c) [lf "avcC" (cconfig c)]
  | VIDEO_HEVC => nd "hev1" (visualEntry c) [lf "hvcC" (cconfig c)]
  | _ => nd "mp4a" (audioEntry c) [lf "esds" (esdsBody c)]
  end.
Definition stblTree (m : media) (c : ctx) : box :=
  nd "stbl" [] [nd "stsd" (zeros 4 ++ be 4 1) [entryTree m c]; lf "stts" (zeros 4 ++ zeros 4); lf "stsc" (zeros 4 ++ zeros 4);
                lf "stsz" (zeros 4 ++ zeros 4 ++ zeros 4); lf "stco" (zeros 4 ++ zeros 4)].
Definition minfTree (m : media) (c : ctx) : box :=
  nd "minf" [] [(if isVideo m then lf "vmhd" (be 4 1 ++ zeros 4 ++ zeros 4) else lf "smhd" (zeros 8));
                nd "dinf" [] [nd "dref" (zeros 4 ++ be 4 1) [lf "url " (be 4 1)]]; stblTree m c].
Definition moovTree (m : media) (c : ctx) : box :=
  nd "moov" [] [lf "mvhd" mvhdBody; nd "mvex" [] [lf "trex" (trexBody c)];
                nd "trak" [] [lf "tkhd" (tkhdBody m c); nd "mdia" [] [lf "mdhd" (mdhdBody c); lf "hdlr" (hdlrBody m); minfTree m c]]].
Definition initTree (m : media) (c : ctx) : list box :=
  [lf "ftyp" (tag "iso6" ++ be 4 1 ++ tag "isom" ++ tag "iso6" ++ tag "dash"); moovTree m c].

Ltac tg := unfold tagOk; reflexivity.
Lemma len_entry m c : len (match m with VIDEO_AVC => write_avc1 c | VIDEO_HEVC => write_hev1 c | _ => write_mp4a c end) =
  len (cconfig c) + (if isVideo m then 94 else 73).
Proof.
  destruct m; cbn [isVideo]; unfold write_avc1, write_hev1, write_mp4a, write_avcc, write_hvcc, write_esds; cbv zeta;
    rewrite len_counted by tg; rewrite ?len_app, ?len_visual, ?(len_sized _ _ _ (eq_refl : tagOk "avcC")), ?(len_sized _ _ _ (eq_refl : tagOk "hvcC")),
      ?(len_counted _ _ (eq_refl : tagOk "esds")), ?len_app, ?len_be, ?len_zeros, ?len_cons, ?len_nil; cbn [Z.of_nat Pos.of_succ_nat Pos.succ]; lia.
Qed.
Lemma len_stsd m c : len (write_stsd m c) = len (cconfig c) + (if isVideo m then 110 else 89).
Proof. unfold write_stsd. rewrite len_counted by tg. rewrite !len_app, len_entry, len_be, len_zeros. destruct (isVideo m); lia. Qed.
Lemma len_stbl m c : len (write_stbl m c) = len (cconfig c) + (if isVideo m then 186 else 165).
Proof. unfold write_stbl. rewrite len_counted by tg. rewrite len_app, len_stsd, len_tables. destruct (isVideo m); lia. Qed.
Lemma len_minf m c : len (write_minf m c) = len (cconfig c) + (if isVideo m then 250 else 225).
Proof. unfold write_minf. rewrite len_counted by tg. rewrite !len_app, len_stbl, len_dinf, len_mh. destruct (isVideo m); lia. Qed.
Lemma len_mdia m c : len (write_mdia m c) = len (cconfig c) + (if isVideo m then 335 else 310).
Proof. unfold write_mdia. rewrite len_counted by tg. rewrite !len_app, len_minf, len_hdlr, len_mdhd. destruct (isVideo m); lia. Qed.
Lemma len_trak m c : len (write_trak m c) = len (cconfig c) + (if isVideo m then 435 else 410).
Proof. unfold write_trak. rewrite len_counted by tg. rewrite !len_app, len_mdia, len_tkhd. destruct (isVideo m); lia. Qed.
Lemma len_moov m c : len (write_moov m c) = len (cconfig c) + (if isVideo m then 591 else 566).
Proof. unfold write_moov. rewrite len_counted by tg. rewrite !len_app, len_trak, len_mvhd, len_mvex. destruct (isVideo m); lia. Qed.

Definition small (c : ctx) : Prop := len (cconfig c) < 4294966272.

Lemma gram_entry m c : small c ->
  gram (match m with VIDEO_AVC => write_avc1 c | VIDEO_HEVC => write_hev1 c | _ => write_mp4a c end) [entryTree m c].
Proof.
  intros B. unfold small in B.
  assert (A: gram (write_mp4a c) [entryTree AUDIO c]).
  { unfold write_mp4a. pose proof (len_entry AUDIO c) as E. unfold write_mp4a in E. rewrite len_counted in E by tg. cbn [isVideo] in E.
    replace (zeros 4 ++ zeros 2 ++ be 2 1 ++ zeros 4 ++ zeros 4 ++ be 2 (cchannels c) ++ be 2 (cbits c) ++ zeros 4 ++
             be 2 (ctimebase c) ++ be 2 (crate c) ++ write_esds c) with (audioEntry c ++ write_esds c) in *
      by (unfold audioEntry; rewrite <- !app_assoc; reflexivity).
    apply one_container; [tg|reflexivity|rewrite E; lia|]. unfold write_esds. cbv zeta. apply one_counted; [tg|reflexivity|].
    rewrite len_app in E. change (len (audioEntry c)) with 28 in E. unfold write_esds in E. cbv zeta in E.
    rewrite len_counted in E by tg. lia. }
  destruct m; [exact A| | |exact A].
  - unfold write_avc1. pose proof (len_entry VIDEO_AVC c) as E. unfold write_avc1 in E. rewrite len_counted in E by tg. cbn [isVideo] in E.
    apply one_container; [tg|reflexivity|rewrite E; lia|]. apply one_sized; [tg|reflexivity|lia|lia].
  - unfold write_hev1. pose proof (len_entry VIDEO_HEVC c) as E. unfold write_hev1 in E. rewrite len_counted in E by tg. cbn [isVideo] in E.
    apply one_container; [tg|reflexivity|rewrite E; lia|]. apply one_sized; [tg|reflexivity|lia|lia].
Qed.
Lemma gram_stbl m c : small c -> gram (write_stbl m c) [stblTree m c].
Proof.
  intros B. pose proof (len_stbl m c) as E. pose proof (len_stsd m c) as E2. unfold write_stbl, write_stsd in *.
  rewrite len_counted in E by tg. rewrite len_counted in E2 by tg.
  apply one_container0; [tg|reflexivity|rewrite E; unfold small in B; destruct (isVideo m); lia|].
  apply gram_app.
  - rewrite app_assoc in *. apply one_container; [tg|reflexivity|rewrite E2; unfold small in B; destruct (isVideo m); lia|].
    apply gram_entry, B.
  - apply gram_app; [apply one_sized; [tg|reflexivity|reflexivity|lia]|].
    apply gram_app; [apply one_sized; [tg|reflexivity|reflexivity|lia]|].
    apply gram_app; [apply one_sized; [tg|reflexivity|reflexivity|lia]|].
    apply one_sized; [tg|reflexivity|reflexivity|lia].
Qed.
Lemma gram_minf m c : small c -> gram (write_minf m c) [minfTree m c].
Proof.
  intros B. pose proof (len_minf m c) as E. unfold write_minf in *. rewrite len_counted in E by tg.
  apply one_container0; [tg|reflexivity|rewrite E; unfold small in B; destruct (isVideo m); lia|].
  apply gram_app.
  - destruct (isVideo m); (apply one_sized; [tg|reflexivity|reflexivity|lia]).
  - apply gram_app; [|apply gram_stbl, B].
    apply one_container0; [tg|reflexivity|reflexivity|]. unfold write_dref. rewrite app_assoc.
    apply one_container; [tg|reflexivity|reflexivity|]. apply one_sized; [tg|reflexivity|reflexivity|lia].
Qed.
Lemma gram_moov m c : small c -> gram (write_moov m c) [moovTree m c].
Proof.
  intros B. pose proof (len_moov m c) as E. pose proof (len_trak m c) as E2. pose proof (len_mdia m c) as E3.
  unfold write_moov, write_trak, write_mdia in *. rewrite len_counted in E by tg. rewrite len_counted in E2 by tg. rewrite len_counted in E3 by tg.
  apply one_container0; [tg|reflexivity|rewrite E; unfold small in B; destruct (isVideo m); lia|].
  apply gram_app; [apply one_counted; [tg|reflexivity|reflexivity]|].
  apply gram_app.
  { apply one_container0; [tg|reflexivity|reflexivity|]. apply one_sized; [tg|reflexivity|reflexivity|lia]. }
  apply one_container0; [tg|reflexivity|rewrite E2; unfold small in B; destruct (isVideo m); lia|].
  apply gram_app; [apply one_counted; [tg|reflexivity|destruct m; reflexivity]|].
  apply one_container0; [tg|reflexivity|rewrite E3; unfold small in B; destruct (isVideo m); lia|].
  apply gram_app; [apply one_counted; [tg|reflexivity|reflexivity]|].
  apply gram_app; [apply one_counted; [tg|reflexivity|destruct m; reflexivity]|].
  apply gram_minf, B.
Qed.
Lemma gram_init m c : small c -> gram (write_ftyp ++ write_moov m c) (initTree m c).
Proof.
  intros B. unfold initTree. apply gram_app; [apply one_counted; [tg|reflexivity|reflexivity]|]. apply gram_moov, B.
Qed.

(** *** The media segment *)
Definition itemLen (m : media) : Z := if isVideo m then 16 else 8.
Definition sidxBody (c : ctx) (r : Z) : bytes :=
  le4 1 ++ be 4 1 ++ be 4 (ctimebase c) ++ be 8 (cept c) ++ be 8 0 ++ zeros 2 ++ be 2 1 ++ be 4 r ++ be 4 (cdur c) ++ [144] ++ zeros 2 ++ zeros 1.
Definition runBody (m : media) (c : ctx) : bytes :=
  be 4 (cflags c) ++ be 4 (Z.of_nat (length (csamples c))) ++ be 4 (68 + 20 + Z.of_nat (length (csamples c)) * itemLen m + 8) ++
  concat (map (trunEntry m) (csamples c)).
Definition segTree (m : media) (c : ctx) (r : Z) (src : bytes) : list box :=
  [lf "styp" (tag "iso6" ++ be 4 1 ++ tag "isom" ++ tag "iso6" ++ tag "dash"); lf "sidx" (sidxBody c r);
   nd "moof" [] [lf "mfhd" (zeros 4 ++ be 4 (cseq c));
                 nd "traf" [] [lf "tfhd" (be 4 131072 ++ be 4 1); lf "tfdt" (le4 1 ++ be 8 (cept c)); lf "trun" (runBody m c)]];
   lf "mdat" src].

Lemma len_styp : len write_styp = 28. Proof. reflexivity. Qed.
Lemma len_sidx c r : len (write_sidx c r) = 52. Proof. reflexivity. Qed.
Lemma len_entries m ss : len (concat (map (trunEntry m) ss)) = Z.of_nat (length ss) * itemLen m.
Proof.
  induction ss as [|s ss IH]; [reflexivity|]. cbn [map concat]. rewrite len_app, IH. unfold trunEntry, itemLen.
  destruct (isVideo m); rewrite !len_app, !len_be, ?len_nil; cbn [length]; lia.
Qed.

(** The moof box: its bytes, with the positions filled in. *)
Definition moofBytes (m : media) (c : ctx) : bytes :=
  counted "moof" (write_mfhd c ++ counted "traf" ((write_tfhd ++ write_tfdt c) ++ counted "trun" (runBody m c))).
Lemma len_moof m c : len (moofBytes m c) = 88 + Z.of_nat (length (csamples c)) * itemLen m.
Proof.
  unfold moofBytes. rewrite len_counted by tg. rewrite len_app, len_counted by tg. rewrite len_app, len_counted by tg.
  unfold runBody. rewrite !len_app, len_entries, !len_be. change (len (write_mfhd c)) with 16. change (len write_tfhd) with 16. change (len (write_tfdt c)) with 20. lia.
Qed.

Lemma some_pair (A B : Type) (a a' : A) (b b' : B) : Some (a, b) = Some (a', b') -> a = a'.
Proof. intros E. inversion E. reflexivity. Qed.
Lemma some_pair2 (A B : Type) (a a' : A) (b b' : B) : Some (a, b) = Some (a', b') -> b = b'.
Proof. intros E. inversion E. reflexivity. Qed.
Lemma sidx_addPos c x y r : write_sidx (addPos c x y) r = write_sidx c r.
Proof. unfold write_sidx, addPos. cbn [ctimebase cept cdur]. reflexivity. Qed.

Lemma segment_bytes src m c r0 out c' :
  cmoof c = ctrun c -> segmentGenerator src m c r0 = Some (out, c') ->
  out = write_styp ++ write_sidx c (len (moofBytes m c) + 8 + len src) ++ moofBytes m c ++ write_mdat src /\ m <> NO_TYPE /\ 1 <= len src.
Proof.
  intros P G. unfold segmentGenerator in G. destruct (Z.ltb_spec (len src) 1) as [|L]; [discriminate|].
  assert (E: m <> NO_TYPE -> write_moof m (addPos c (len write_styp + len (write_sidx c r0)) (len write_styp + len (write_sidx c r0))) =
             (moofBytes m c, addPos c (len write_styp + len (write_sidx c r0) + 24 + 44) (len write_styp + len (write_sidx c r0)))).
  { intros NM. rewrite len_styp, len_sidx. unfold write_moof, write_traf, moofBytes. cbv zeta.
    change (len (write_mfhd _)) with 16. change (len (write_tfhd ++ write_tfdt _)) with 36.
    f_equal.
    - match goal with |- counted _ (_ ++ counted _ (_ ++ ?x)) = counted _ (_ ++ counted _ (_ ++ ?y)) => assert (R: x = y); [|rewrite R; reflexivity] end.
      unfold write_trun, runBody, addPos. cbn [ctrun cmoof csamples cflags]. cbv zeta.
      match goal with |- counted _ (_ ++ _ ++ be 4 ?x ++ _) = counted _ (_ ++ _ ++ be 4 ?y ++ _) => replace x with y; [reflexivity|] end.
      unfold itemLen. destruct (isVideo m); lia.
    - unfold addPos. cbn. f_equal; lia. }
  destruct m; try discriminate; cbv zeta in G; rewrite E in G by discriminate; apply some_pair in G; rewrite sidx_addPos in G;
    (split; [symmetry; exact G|split; [discriminate|exact L]]).
Qed.

Lemma addPos_twice c a b d e : addPos (addPos c a b) d e = addPos c (a + d) (b + e).
Proof. unfold addPos. cbn. f_equal; lia. Qed.
Lemma segment_ctx src m c r0 out c' : segmentGenerator src m c r0 = Some (out, c') -> exists x y, c' = addPos c x y.
Proof.
  intros G. unfold segmentGenerator in G. destruct (len src <? 1); [discriminate|].
  assert (E: forall k d1 d2, exists b x y, write_moof k (addPos c d1 d2) = (b, addPos c x y)).
  { intros k d1 d2. unfold write_moof, write_traf. cbv zeta. rewrite !addPos_twice. eexists _, _, _. reflexivity. }
  destruct m; try discriminate; cbv zeta in G; match type of G with context [write_moof ?k (addPos c ?d1 ?d2)] => destruct (E k d1 d2) as (b & x & y & EQ); rewrite EQ in G end;
    apply some_pair2 in G; exists x, y; symmetry; exact G.
Qed.

Definition segBytes (m : media) (c : ctx) (src : bytes) : bytes :=
  write_styp ++ write_sidx c (len (moofBytes m c) + 8 + len src) ++ moofBytes m c ++ write_mdat src.

Lemma gram_seg m c src :
  len (moofBytes m c) < 4294967296 -> len src + 8 < 4294967296 ->
  gram (segBytes m c src) (segTree m c (len (moofBytes m c) + 8 + len src) src).
Proof.
  intros B1 B2. unfold segBytes, segTree. pose proof (len_moof m c) as E.
  apply gram_app; [apply one_sized; [tg|reflexivity|reflexivity|lia]|].
  apply gram_app; [apply one_counted; [tg|reflexivity|reflexivity]|].
  apply gram_app; [|apply one_sized; [tg|reflexivity|lia|lia]].
  rewrite E in B1. unfold moofBytes in *. rewrite len_counted in E by tg.
  apply one_container0; [tg|reflexivity|lia|].
  apply gram_app; [apply one_sized; [tg|reflexivity|reflexivity|lia]|].
  rewrite len_app in E. change (len (write_mfhd c)) with 16 in E. rewrite len_counted in E by tg.
  apply one_container0; [tg|reflexivity|lia|]. rewrite <- app_assoc.
  apply gram_app; [apply one_sized; [tg|reflexivity|reflexivity|lia]|].
  apply gram_app; [apply one_sized; [tg|reflexivity|reflexivity|lia]|].
  apply one_counted; [tg|reflexivity|]. rewrite !len_app in E. rewrite len_counted in E by tg.
  change (len write_tfhd) with 16 in E. change (len (write_tfdt c)) with 20 in E. lia.
Qed.

(** Where the moof starts. *)
Lemma start_seg m c src : startOf (segBytes m c src) (length (segBytes m c src)) "moof" = Some 80%nat.
Proof.
  set (tail := moofBytes m c ++ write_mdat src).
  assert (TL: sub 4 4 tail = tag "moof").
  { unfold tail, moofBytes, counted. rewrite <- !app_assoc. apply sub_app; [apply be_length|reflexivity]. }
  assert (T8: len tail <? 8 = false).
  { apply Z.ltb_ge. unfold tail. rewrite len_app, len_moof. pose proof (len_nonneg (write_mdat src)). unfold itemLen. destruct (isVideo m); lia. }
  assert (E: segBytes m c src = write_styp ++ write_sidx c (len (moofBytes m c) + 8 + len src) ++ tail) by reflexivity.
  rewrite E. clear E. set (r := len (moofBytes m c) + 8 + len src).
  assert (LF: exists k, length (write_styp ++ write_sidx c r ++ tail) = S (S (S k))).
  { exists (77 + length tail)%nat. rewrite !app_length. change (length write_styp) with 28%nat. change (length (write_sidx c r)) with 52%nat. lia. }
  destruct LF as (k & ->). unfold startOf. cbv zeta.
  assert (Q1: len (write_styp ++ write_sidx c r ++ tail) <? 8 = false).
  { apply Z.ltb_ge. rewrite len_app, len_styp. pose proof (len_nonneg (write_sidx c r ++ tail)). lia. }
  assert (Q2: len (write_sidx c r ++ tail) <? 8 = false).
  { apply Z.ltb_ge. rewrite len_app, len_sidx. pose proof (len_nonneg tail). lia. }
  rewrite Q1. change (sub 4 4 (write_styp ++ write_sidx c r ++ tail)) with (tag "styp").
  change (bytesEqb (tag "styp") (tag "moof")) with false. cbn match.
  change (Z.to_nat (rd (firstn 4 (write_styp ++ write_sidx c r ++ tail)))) with 28%nat.
  change (Nat.ltb 28 8) with false. cbn match.
  change (skipn 28 (write_styp ++ write_sidx c r ++ tail)) with (write_sidx c r ++ tail).
  rewrite Q2. change (sub 4 4 (write_sidx c r ++ tail)) with (tag "sidx").
  change (bytesEqb (tag "sidx") (tag "moof")) with false. cbn match.
  change (Z.to_nat (rd (firstn 4 (write_sidx c r ++ tail)))) with 52%nat.
  change (Nat.ltb 52 8) with false. cbn match.
  rewrite (skipn_app_len _ 52 (write_sidx c r) tail) by reflexivity.
  rewrite T8, TL. change (bytesEqb (tag "moof") (tag "moof")) with true. cbn match. reflexivity.
Qed.

(** The entries of the run. *)
Definition entryOf (m : media) (s : sample) : Z * Z * Z * Z :=
  (sdur s mod 4294967296, ssize s mod 4294967296, if isVideo m then (if skey s then 0 else 65536) else 0,
   if isVideo m then (spts s - sdts s) mod 4294967296 else 0).
Definition runFlags (m : media) : Z := if isVideo m then 3841 else 769.

Lemma take4_be x rest d : take4 true d (be 4 x ++ rest) = Some (x mod 4294967296, rest).
Proof.
  unfold take4. replace (len (be 4 x ++ rest) <? 4) with false.
  2:{ symmetry. apply Z.ltb_ge. rewrite len_app, len_be. pose proof (len_nonneg rest). lia. }
  rewrite firstn_app_len, skipn_app_len by apply be_length. rewrite rd_be. reflexivity.
Qed.
Lemma take4_absent l d : take4 false d l = Some (d, l).
Proof. reflexivity. Qed.

Lemma entries_run m ss : entries (length ss) (runFlags m) (concat (map (trunEntry m) ss)) = Some (map (entryOf m) ss).
Proof.
  induction ss as [|s ss IH]; [reflexivity|]. cbn [length map concat entries].
  unfold trunEntry at 1, entryOf at 1. unfold runFlags in *. destruct (isVideo m).
  - change (bit 3841 256) with true. change (bit 3841 512) with true. change (bit 3841 1024) with true. change (bit 3841 2048) with true.
    rewrite <- !app_assoc. rewrite take4_be, take4_be, take4_be, take4_be. rewrite IH. destruct (skey s); reflexivity.
  - change (bit 769 256) with true. change (bit 769 512) with true. change (bit 769 1024) with false. change (bit 769 2048) with false.
    rewrite <- !app_assoc. rewrite take4_be, take4_be. rewrite app_nil_l, take4_absent, take4_absent. rewrite IH. reflexivity.
Qed.

(** What the player gets for the frame bytes [b] described by [s]. *)
Definition accessOf (m : media) (p : bytes * sample) : access :=
  mkAccess (fst p) (sdur (snd p) mod 4294967296) (if isVideo m then (spts (snd p) - sdts (snd p)) mod 4294967296 else 0)
           (if isVideo m then skey (snd p) else true).

Lemma cut_frames m fs : Forall (fun p => ssize (snd p) = len (fst p) /\ len (fst p) < 4294967296) fs ->
  cut (concat (map fst fs)) (map (entryOf m) (map snd fs)) = Some (map (accessOf m) fs).
Proof.
  induction 1 as [|[b s] fs [S1 S2] _ IH]; [reflexivity|]. cbn [fst snd] in S1, S2. cbn [map concat fst snd cut entryOf].
  pose proof (len_nonneg b). rewrite S1, Z.mod_small by lia.
  destruct (Z.ltb_spec (len (b ++ concat (map fst fs))) (len b)) as [C|_].
  { rewrite len_app in C. pose proof (len_nonneg (concat (map fst fs))). lia. }
  replace (Z.to_nat (len b)) with (length b) by (unfold len; lia).
  rewrite skipn_app_len, firstn_app_len by reflexivity. rewrite IH. unfold accessOf at 2. cbn [fst snd].
  destruct (isVideo m); [|reflexivity]. destruct (skey s); reflexivity.
Qed.

Lemma demux_segment m c r0 fs out c' :
  cmoof c = ctrun c -> cflags c = runFlags m -> csamples c = map snd fs ->
  Forall (fun p => ssize (snd p) = len (fst p)) fs ->
  88 + Z.of_nat (length fs) * 16 + 8 < 4294967296 -> len (concat (map fst fs)) + 8 < 4294967296 ->
  segmentGenerator (concat (map fst fs)) m c r0 = Some (out, c') ->
  demux out = Some (mkFragment (cseq c mod 4294967296) (cept c mod 18446744073709551616) (map (accessOf m) fs)) /\
  parseFile out = Some (segTree m c (len (moofBytes m c) + 8 + len (concat (map fst fs))) (concat (map fst fs))).
Proof.
  intros P FL SS SZ B1 B2 G. set (src := concat (map fst fs)) in *.
  destruct (segment_bytes _ _ _ _ _ _ P G) as (-> & NM & L1). fold (segBytes m c src).
  assert (LN: length (csamples c) = length fs) by (rewrite SS; apply map_length).
  assert (LM: len (moofBytes m c) < 4294967296).
  { rewrite len_moof, LN. unfold itemLen. destruct (isVideo m); lia. }
  pose proof (gram_file _ _ (gram_seg m c src LM B2)) as PF.
  split; [|exact PF]. unfold demux. rewrite PF, start_seg.
  set (bs := segTree m c (len (moofBytes m c) + 8 + len src) src).
  change (raw bs ["moof"; "traf"; "trun"]%string) with (Some (runBody m c)).
  change (field bs ["moof"; "mfhd"]%string 4 4) with (Some (rd (be 4 (cseq c)))).
  change (decodeTime bs) with (Some (rd (be 8 (cept c)))).
  change (field bs ["moof"; "traf"; "tfhd"]%string 0 4) with (Some 131072).
  cbv beta iota zeta.
  set (n := Z.of_nat (length (csamples c))). set (ent := concat (map (trunEntry m) (csamples c))).
  set (off := 68 + 20 + n * itemLen m + 8).
  assert (RB: runBody m c = be 4 (cflags c) ++ be 4 n ++ be 4 off ++ ent) by reflexivity. rewrite RB.
  assert (OB: 0 <= off < 4294967296).
  { unfold off, n. rewrite LN. unfold itemLen. destruct (isVideo m); lia. }
  assert (NB: 0 <= n < 4294967296) by (unfold n; rewrite LN; lia).
  assert (E0: sub 0 4 (be 4 (cflags c) ++ be 4 n ++ be 4 off ++ ent) = be 4 (cflags c)).
  { apply (sub_app 0 4 []); [reflexivity|apply be_length]. }
  assert (E1: sub 4 4 (be 4 (cflags c) ++ be 4 n ++ be 4 off ++ ent) = be 4 n) by (apply sub_app; apply be_length).
  assert (E2: sub 8 4 (be 4 (cflags c) ++ be 4 n ++ be 4 off ++ ent) = be 4 off).
  { rewrite app_assoc. apply sub_app; [rewrite app_length, !be_length; reflexivity|apply be_length]. }
  assert (E3: skipn 12 (be 4 (cflags c) ++ be 4 n ++ be 4 off ++ ent) = ent).
  { replace (be 4 (cflags c) ++ be 4 n ++ be 4 off ++ ent) with ((be 4 (cflags c) ++ be 4 n ++ be 4 off) ++ ent) by (rewrite <- !app_assoc; reflexivity).
    apply skipn_app_len. rewrite !app_length, !be_length. reflexivity. }
  rewrite E0, E1, E2, E3, !rd_be. change (256 ^ Z.of_nat 4) with 4294967296. change (256 ^ Z.of_nat 8) with 18446744073709551616.
  rewrite (Z.mod_small off), (Z.mod_small n) by assumption. rewrite FL.
  replace ((runFlags m mod 4294967296) mod 16777216) with (runFlags m) by (unfold runFlags; destruct (isVideo m); reflexivity).
  replace (bit (runFlags m) 1) with true by (unfold runFlags; destruct (isVideo m); reflexivity).
  change (bit 131072 131072) with true. cbn [negb orb].
  replace (Z.to_nat n) with (length (csamples c)) by (unfold n; lia). unfold ent. rewrite entries_run.
  assert (SK: skipn (80 + Z.to_nat off) (segBytes m c src) = src).
  { unfold segBytes, write_mdat, sized. set (q := len (moofBytes m c) + 8 + len src).
    replace (write_styp ++ write_sidx c q ++ moofBytes m c ++ be 4 (len src + 8) ++ tag "mdat" ++ src)
      with ((write_styp ++ write_sidx c q ++ moofBytes m c ++ be 4 (len src + 8) ++ tag "mdat") ++ src) by (rewrite <- !app_assoc; reflexivity).
    apply skipn_app_len. rewrite !app_length, be_length. change (length write_styp) with 28%nat. change (length (write_sidx c q)) with 52%nat.
    change (length (tag "mdat")) with 4%nat. pose proof (len_moof m c) as LMm. unfold len in LMm. fold n in LMm. unfold off. lia. }
  rewrite SK, SS. unfold src. rewrite (cut_frames m fs); [reflexivity|].
  rewrite Forall_forall in *. intros p IP. split; [apply SZ, IP|].
  assert (len (fst p) <= len src); [|lia]. unfold src. clear -IP. induction fs as [|q fs IH]; [destruct IP|].
  cbn [map concat]. rewrite len_app. pose proof (len_nonneg (concat (map fst fs))). pose proof (len_nonneg (fst q)).
  destruct IP as [->|IP]; [lia|]. specialize (IH IP). lia.
Qed.
