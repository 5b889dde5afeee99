(** Properties C100 (the report tells of the receivers there are) and C101 (every transmitter has a port of its own). *)
From Verif Require Import Base ZMap RcpModel RcpSpec RcpProofs.

(** Whoever the report tells of is there: it never reads a receiver that has gone. *)
Theorem C100_only_who_is_there h x : visits h -> In x (told (after h)) -> there h x.
Proof. apply told_there. Qed.
Print Assumptions C100_only_who_is_there.

(** And nobody is told of twice. *)
Theorem C100_once h : NoDup (told (after h)).
Proof. apply told_nodup. Qed.
Print Assumptions C100_once.

(** Exactly who is told of: who came with a number with which nobody has come, and nobody has gone, since. *)
Theorem C100_who_is_told h x : In x (told (after h)) <->
  exists h1 h2, h = h1 ++ Comes x :: h2 /\ forall y, number y = number x -> ~ In (Comes y) h2 /\ ~ In (Goes y) h2.
Proof. apply told_iff. Qed.
Print Assumptions C100_who_is_told.

(** While no two receivers that are there have the same number, all are told of. *)
Theorem C100_all_there_partial h x : visits h -> numbersDiffer h -> there h x -> In x (told (after h)).
Proof. apply there_told. Qed.
Print Assumptions C100_all_there_partial.

(** With the same number, which rand() is free to give, they are not: the second replaces the first, and *)
Theorem C100_same_number_refuted (n : Z) : exists h x y, visits h /\ number x = n /\ number y = n /\ there h x /\ there h y /\ told (after h) = [y].
Proof.
  exists [Comes (mkRc 0 n); Comes (mkRc 1 n)], (mkRc 0 n), (mkRc 1 n).
  assert (V : visits ([] ++ [Comes (mkRc 0 n)])) by (apply vi_comes; [apply vi_none|intros y []]).
  split; [refine (vi_comes [Comes (mkRc 0 n)] (mkRc 1 n) V _); intros y [E|[]]; injection E as <-; discriminate|].
  split; [reflexivity|]. split; [reflexivity|]. unfold there.
  split; [split; [cbn; auto|intros [X|[X|[]]]; discriminate]|]. split; [split; [cbn; auto|intros [X|[X|[]]]; discriminate]|].
  unfold after, told. cbn. rewrite Z.eqb_refl. reflexivity.
Qed.
Print Assumptions C100_same_number_refuted.
(** when one of them goes, the one that stays is not told of, whichever it is. *)
Theorem C100_other_leaves_refuted (n : Z) : exists h1 h2 x y, x <> y /\ visits h1 /\ there h1 x /\ told (after h1) = [] /\ visits h2 /\ there h2 y /\ told (after h2) = [].
Proof.
  set (x := mkRc 0 n). set (y := mkRc 1 n).
  exists ([Comes x; Comes y] ++ [Goes y]), ([Comes x; Comes y] ++ [Goes x]), x, y.
  assert (V : visits ([Comes x] ++ [Comes y])).
  { apply vi_comes; [refine (vi_comes [] x vi_none _); intros z []|]. intros z [E|[]]. injection E as <-. discriminate. }
  assert (XY : x <> y) by discriminate.
  split; [exact XY|].
  assert (TX : there [Comes x; Comes y] x) by (split; [cbn; auto|intros [X|[X|[]]]; discriminate]).
  assert (TY : there [Comes x; Comes y] y) by (split; [cbn; auto|intros [X|[X|[]]]; discriminate]).
  assert (R : forall z, number z = n -> told (after ([Comes x; Comes y] ++ [Goes z])) = []).
  { intros z <-. unfold after, told. cbn. rewrite Z.eqb_refl. cbn. rewrite Z.eqb_refl. reflexivity. }
  split; [exact (vi_goes [Comes x; Comes y] y V TY)|]. split; [split; [cbn; auto|intros [X|[X|[X|[]]]]; try discriminate]|].
  split; [apply R; reflexivity|]. split; [exact (vi_goes [Comes x; Comes y] x V TX)|]. split; [split; [cbn; auto|intros [X|[X|[X|[]]]]; try discriminate]|].
  apply R; reflexivity.
Qed.
Print Assumptions C100_other_leaves_refuted.

(** A history with several receivers whose numbers differ while they are there: the first goes, another comes with its number. *)
Example C100_not_vacuous : exists h, visits h /\ numbersDiffer h /\ there h (mkRc 1 5) /\ there h (mkRc 2 9) /\ told (after h) = [mkRc 1 5; mkRc 2 9].
Proof.
  set (a := mkRc 0 9). set (b := mkRc 1 5). set (c := mkRc 2 9).
  exists [Comes a; Comes b; Goes a; Comes c].
  assert (V1 : visits [Comes a]) by (refine (vi_comes [] a vi_none _); intros y []).
  assert (V2 : visits [Comes a; Comes b]) by (refine (vi_comes [Comes a] b V1 _); intros y [E|[]]; injection E as <-; discriminate).
  assert (V3 : visits [Comes a; Comes b; Goes a]) by (refine (vi_goes [Comes a; Comes b] a V2 _); split; [cbn; auto|intros [X|[X|[]]]; discriminate]).
  assert (V4 : visits [Comes a; Comes b; Goes a; Comes c]) by (refine (vi_comes [Comes a; Comes b; Goes a] c V3 _); intros y [E|[E|[E|[]]]]; try discriminate; injection E as <-; discriminate).
  split; [exact V4|]. split.
  - intros h1 h2 x y E [CX GX] [CY GY] N.
    assert (P : forall z, In (Comes z) h1 -> z = a \/ z = b \/ (z = c /\ In (Goes a) h1)).
    { intros z Z. destruct h1 as [|v1 [|v2 [|v3 [|v4 h1]]]]; cbn [app] in E.
      - destruct Z.
      - injection E as <- _. cbn in Z. destruct Z as [Z|[]]. injection Z as <-. auto.
      - injection E as <- <- _. cbn in Z. destruct Z as [Z|[Z|[]]]; injection Z as <-; auto.
      - injection E as <- <- <- _. cbn in Z. destruct Z as [Z|[Z|[Z|[]]]]; try discriminate Z; injection Z as <-; auto.
      - injection E as <- <- <- <- E. destruct h1; [|discriminate E]. cbn in Z. destruct Z as [Z|[Z|[Z|[Z|[]]]]]; try discriminate Z; injection Z as <-; auto. right; right. split; [reflexivity|cbn; auto]. }
    destruct (P x CX) as [->|[->|[-> GA]]], (P y CY) as [->|[->|[-> GB]]]; try reflexivity; try discriminate N; tauto.
  - split; [split; [cbn; auto|intros [X|[X|[X|[X|[]]]]]; try discriminate]|]. split; [split; [cbn; auto|intros [X|[X|[X|[X|[]]]]]; try discriminate]|]. reflexivity.
Qed.

(** *** The ports of transmitters *)
(** Whatever transmitters were created and destroyed, and whatever ports other programs had at those times,
    no two transmitters have the same port, and each has one of the six, so that there are at most six. *)
Theorem C101_own_ports cs : NoDup (map snd (alters cs)) /\ (forall x, In x (alters cs) -> In (snd x) serverPorts) /\ (length (alters cs) <= 6)%nat.
Proof.
  destruct (alters_inv cs) as [N P]. split; [exact N|]. split; [exact P|]. rewrite <- (map_length snd). change 6%nat with (length serverPorts).
  apply NoDup_incl_length; [exact N|]. intros p I. apply in_map_iff in I as (x & <- & X). auto.
Qed.
Print Assumptions C101_own_ports.

(** A transmitter that is asked for is created exactly if one of the six ports is free, with the first of these; those
    there are keep theirs. *)
Theorem C101_first_free_port cs t taken :
  (alters (cs ++ [Asked t taken]) = alters cs /\ forall p, In p serverPorts -> In p taken \/ In p (map snd (alters cs))) \/
  exists before p later, alters (cs ++ [Asked t taken]) = (t, p) :: alters cs /\ serverPorts = before ++ p :: later /\
    ~ In p taken /\ ~ In p (map snd (alters cs)) /\ forall q, In q before -> In q taken \/ In q (map snd (alters cs)).
Proof.
  assert (A : alters (cs ++ [Asked t taken]) = match find (freeAt (alters cs) taken) serverPorts with Some p => (t, p) :: alters cs | None => alters cs end).
  { rewrite <- listen_spec. unfold alters. rewrite fold_left_app. reflexivity. }
  rewrite A.
  assert (T : forall p, freeAt (alters cs) taken p = false -> In p taken \/ In p (map snd (alters cs))).
  { intros p F. destruct (in_dec Z.eq_dec p taken) as [|N1]; [auto|]. destruct (in_dec Z.eq_dec p (map snd (alters cs))) as [|N2]; [auto|].
    rewrite (proj2 (free_spec _ _ _) (conj N1 N2)) in F. discriminate. }
  clear A. induction serverPorts as [|p ps IH]; cbn [find].
  - left. split; [reflexivity|]. intros p [].
  - destruct (freeAt (alters cs) taken p) eqn:F.
    + right. apply free_spec in F as [F1 F2]. exists [], p, ps. repeat split; auto. intros q [].
    + destruct IH as [[E G]|(b & q & l & E & S & N1 & N2 & B)].
      * left. split; [exact E|]. intros q [<-|Q]; auto.
      * right. exists (p :: b), q, l. split; [exact E|]. split; [now rewrite S|]. split; [exact N1|]. split; [exact N2|]. intros r [<-|R]; auto.
Qed.
Print Assumptions C101_first_free_port.

(** A destroyed transmitter's port can be had again. *)
Theorem C101_port_given_back cs t p : In (t, p) (alters cs) -> ~ In p (map snd (alters (cs ++ [Destroyed t]))).
Proof.
  intros I X. destruct (alters_inv cs) as [N _]. unfold alters in X. rewrite fold_left_app in X. cbn [fold_left alter] in X. fold (alters cs) in X.
  apply in_map_iff in X as ([u q] & E & X). cbn in E. subst q. apply filter_In in X as [X D]. cbn in D.
  assert (U : u = t); [|subst; rewrite Nat.eqb_refl in D; discriminate].
  clear D. induction (alters cs) as [|[v r] l IH]; [destruct I|]. cbn in N. inversion N as [|a b A B]; subst. destruct I as [I|I], X as [X|X].
  - congruence.
  - injection I as -> ->. destruct A. apply in_map_iff. exists (u, p). auto.
  - injection X as -> ->. destruct A. apply in_map_iff. exists (t, p). auto.
  - auto.
Qed.
Print Assumptions C101_port_given_back.

Example C101_not_vacuous : alters [Asked 0 [8554%Z]; Asked 1 []; Asked 2 []; Destroyed 1; Asked 3 []] = [(3%nat, 8554%Z); (2%nat, 8558%Z); (0%nat, 8556%Z)].
Proof. reflexivity. Qed.
