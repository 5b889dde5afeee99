(** Bytes as integers, and big-endian fields: shared vocabulary of the container and packet models. *)
From Coq Require Import Ascii String.
From Verif Require Import Base.
Local Open Scope list_scope.
Local Open Scope Z_scope.
Notation length := List.length.

Definition bytes := list Z.
Definition isByte (b : Z) : Prop := 0 <= b < 256.

(** The [n]-byte big-endian form of an integer (of its residue modulo 256^n, as C's conversion to an
    unsigned type followed by htons / htonl). *)
Fixpoint be (n : nat) (z : Z) : bytes :=
  match n with O => [] | S m => be m (z / 256) ++ [z mod 256] end.

(** The number that big-endian bytes stand for. *)
Definition rd (l : bytes) : Z := fold_left (fun a b => a * 256 + b) l 0.

(** The bytes of a text. *)
Definition tag (s : string) : bytes := map (fun c => Z.of_N (N_of_ascii c)) (list_ascii_of_string s).

(** The bytes [off .. off+n) of [l]. *)
Definition sub (off n : nat) (l : bytes) : bytes := firstn n (skipn off l).

Definition len (l : bytes) : Z := Z.of_nat (length l).

Lemma be_length n : forall z, length (be n z) = n.
Proof. induction n; intros z; cbn [be]; [reflexivity|]. rewrite app_length, IHn. cbn. lia. Qed.
Lemma be_bytes n : forall z, Forall isByte (be n z).
Proof.
  induction n; intros z; cbn [be]; [constructor|]. apply Forall_app. split; [apply IHn|]. constructor; [|constructor].
  unfold isByte. apply Z.mod_pos_bound. lia.
Qed.
Lemma rd_snoc l b : rd (l ++ [b]) = rd l * 256 + b.
Proof. unfold rd. rewrite fold_left_app. reflexivity. Qed.
Lemma rd_be n : forall z, rd (be n z) = z mod 256 ^ Z.of_nat n.
Proof.
  induction n; intros z; cbn [be].
  - cbn. rewrite Z.mod_1_r. reflexivity.
  - rewrite rd_snoc, IHn. rewrite Nat2Z.inj_succ, Z.pow_succ_r by lia.
    rewrite Z.rem_mul_r by (try lia; apply Z.pow_nonzero; lia). lia.
Qed.
Lemma rd_be_id n z : 0 <= z < 256 ^ Z.of_nat n -> rd (be n z) = z.
Proof. intros H. rewrite rd_be. apply Z.mod_small, H. Qed.
Lemma be_mod n : forall z, be n (z mod 256 ^ Z.of_nat n) = be n z.
Proof.
  induction n; intros z; [reflexivity|]. cbn [be]. rewrite Nat2Z.inj_succ, Z.pow_succ_r by lia.
  pose proof (Z.pow_pos_nonneg 256 (Z.of_nat n) ltac:(lia) ltac:(lia)) as P.
  rewrite Z.rem_mul_r by lia.
  replace ((z mod 256 + 256 * ((z / 256) mod 256 ^ Z.of_nat n)) / 256) with ((z / 256) mod 256 ^ Z.of_nat n).
  2:{ rewrite Z.mul_comm, Z.div_add by lia. rewrite (Z.div_small (z mod 256)) by (apply Z.mod_pos_bound; lia). lia. }
  rewrite IHn. f_equal. f_equal. rewrite Z.mul_comm, Z.mod_add by lia. apply Z.mod_mod. lia.
Qed.
Lemma rd_nonneg l : Forall isByte l -> 0 <= rd l.
Proof.
  intros H. induction l using rev_ind; [reflexivity|]. rewrite rd_snoc. apply Forall_app in H. destruct H as [H1 H2].
  inversion H2 as [|? ? B]; subst. unfold isByte in B. specialize (IHl H1). lia.
Qed.
Lemma rd_bound l : Forall isByte l -> rd l < 256 ^ Z.of_nat (length l).
Proof.
  intros H. induction l using rev_ind; [reflexivity|]. rewrite rd_snoc, app_length. apply Forall_app in H. destruct H as [H1 H2].
  inversion H2 as [|? ? B]; subst. unfold isByte in B. specialize (IHl H1). cbn [length].
  replace (Z.of_nat (length l + 1)) with (Z.succ (Z.of_nat (length l))) by lia. rewrite Z.pow_succ_r by lia. lia.
Qed.
Lemma be_rd l : Forall isByte l -> be (length l) (rd l) = l.
Proof.
  intros H. induction l using rev_ind; [reflexivity|]. rewrite rd_snoc, app_length. apply Forall_app in H. destruct H as [H1 H2].
  inversion H2 as [|? ? B]; subst. unfold isByte in B. cbn [length]. replace (length l + 1)%nat with (S (length l)) by lia. cbn [be].
  rewrite Z.div_add_l by lia. rewrite (Z.div_small x) by lia. rewrite Z.add_0_r, IHl by assumption.
  f_equal. f_equal. rewrite Z.add_comm, Z.mod_add by lia. apply Z.mod_small. lia.
Qed.

Lemma firstn_app_len (A : Type) n (a b : list A) : length a = n -> firstn n (a ++ b) = a.
Proof. intros <-. rewrite firstn_app, Nat.sub_diag. cbn. rewrite app_nil_r. apply firstn_all. Qed.
Lemma skipn_app_len (A : Type) n (a b : list A) : length a = n -> skipn n (a ++ b) = b.
Proof. intros <-. rewrite skipn_app, Nat.sub_diag, skipn_all. reflexivity. Qed.
Lemma sub_app off n a b c : length a = off -> length b = n -> sub off n (a ++ b ++ c) = b.
Proof. intros A B. unfold sub. rewrite skipn_app_len by exact A. apply firstn_app_len, B. Qed.
Lemma len_app a b : len (a ++ b) = len a + len b.
Proof. unfold len. rewrite app_length. lia. Qed.
Lemma len_nonneg a : 0 <= len a.
Proof. unfold len. lia. Qed.
