(** C98: an sblist and a tlist that get the same calls hold the same items; tests/tlist_test.c. *)
From Verif Require Import Base M_sblist S_sblist D_sblist P_sblist.
From Verif Require Import M_tlist S_tlist D_tlist P_tlist M_tltest P_tltest.

(** what the calls do to a list *)
Definition both_spec (xs : list (list Z)) (o : both) : list (list Z) :=
  match o with
  | BAdd v => xs ++ [v]
  | BIns v pos => ztake pos xs ++ v :: zdrop pos xs
  | BDel pos => if pos <? zlen xs then ztake pos xs ++ zdrop (pos + 1) xs else xs
  end.
(** the calls that both lists allow: insert up to the end *)
Definition both_ok (isize n : Z) (o : both) : Prop :=
  match o with BAdd v => zlen v = isize | BIns v pos => zlen v = isize /\ 0 <= pos <= n | BDel pos => 0 <= pos < 2 ^ 64 end.
Fixpoint all_ok (isize : Z) (xs : list (list Z)) (os : list both) : Prop :=
  match os with [] => True | o :: os => both_ok isize (zlen xs) o /\ all_ok isize (both_spec xs o) os end.
(** each call with fresh memory (realloc's content, malloc's address) *)
Fixpoint both_run (w : world) (os : list ((Z -> Z) * Z * both)) : out world :=
  match os with [] => Ret w | (j, a, o) :: os => let* w := both_do (Some j) (Some a) w o in both_run w os end.
(** both lists read as xs, through getsize and get *)
Definition both_read (w : world) (xs : list (list Z)) : Prop :=
  M_sblist.cnt (wl w) = zlen xs /\ tlist_getsize (wt w) = zlen xs /\
  forall i, 0 <= i < zlen xs -> exists off, sblist_get (wl w) i = Some off /\ zreads (mem (wl w)) off (isz (wl w)) = Ret (znth [] xs i) /\ snd (tlist_get (wt w) i) = Some (znth [] xs i).
Lemma agree_read isize bl w xs ys : LIM * isize < 2 ^ 64 -> agree isize bl w xs ys -> both_read w xs.
Proof.
  intros Hi A. destruct (agree_sizes isize bl w xs ys A) as (S1 & S2 & _). split; [exact S1|]. split; [exact S2|]. intros i I. destruct A as [J Ei Eb G S]. destruct (inv_reads LIM (wl w) xs J ltac:(rewrite Ei; exact Hi)) as (_ & R & _).
  destruct (R i I) as (off & E & Z). exists off. split; [exact E|]. split; [exact Z|]. rewrite (get_good (wt w) ys i (0, []) G) by (replace (zlen ys) with (zlen xs) by (rewrite <- S; apply zlen_map); lia). cbn [snd]. f_equal. rewrite <- S. symmetry. apply (znth_map snd). rewrite <- S, zlen_map in I. exact I.
Qed.
Lemma do_ok isize bl j a w xs ys o : bl < 2 ^ 32 -> LIM * isize < 2 ^ 64 -> agree isize bl w xs ys -> zlen xs < 2 ^ 32 - 1 -> both_ok isize (zlen xs) o ->
  exists w' ys', both_do (Some j) (Some a) w o = Ret w' /\ agree isize bl w' (both_spec xs o) ys'.
Proof.
  intros Hb Hi A L V. pose proof (zlen_nonneg xs). destruct o as [v|v pos|pos]; cbn [both_do both_spec both_ok] in *.
  - destruct (step_add isize bl Hb Hi j (S (wk w)) a w xs ys v A L V) as (l & t & -> & -> & A'). cbn [bind]. eauto.
  - destruct V as [V P]. rewrite <- (ztake_zdrop pos xs) in A, L. destruct (step_ins isize bl Hb Hi j (S (wk w)) a w (ztake pos xs) (zdrop pos xs) ys v A L V) as (l & t & ya & yb & E1 & E2 & _ & _ & A'). rewrite zlen_ztake in E1, E2 by lia. rewrite E1, E2. cbn [bind]. eauto.
  - destruct (Z.ltb_spec pos (zlen xs)) as [P|P].
    + rewrite (zsplit1 [] pos xs) in A by lia. destruct (step_del isize bl Hb Hi (S (wk w)) w (ztake pos xs) _ (zdrop (pos + 1) xs) ys A) as (l & t & ya & y & yb & E1 & E2 & _ & A'). rewrite zlen_ztake in E1, E2 by lia. rewrite E1. cbn [bind]. rewrite E2. cbn [bind]. eauto.
    + destruct (step_del_none isize bl (S (wk w)) w xs ys pos A ltac:(lia)) as (l & t & -> & E2 & A'). cbn [bind]. rewrite E2. cbn [bind]. eauto.
Qed.
Lemma spec_len isize xs o : both_ok isize (zlen xs) o -> zlen (both_spec xs o) <= zlen xs + 1.
Proof.
  pose proof (zlen_nonneg xs). destruct o as [v|v pos|pos]; cbn [both_ok both_spec]; intros V.
  - zl. lia.
  - zl. rewrite zlen_ztake, zlen_zdrop by lia. lia.
  - destruct (Z.ltb_spec pos (zlen xs)); [|lia]. zl. rewrite zlen_ztake, zlen_zdrop by lia. lia.
Qed.
(** C98: whatever the calls, and whatever memory they get, both lists read as the list of the specification *)
Theorem c98_same isize bl l0 os : 1 <= isize < 2 ^ 31 -> 1 <= bl < 2 ^ 32 -> sblist_init isize bl = Ret l0 -> all_ok isize [] (map snd os) -> zlen os < 2 ^ 32 ->
  exists w, both_run (mkW l0 tlist_new 0) os = Ret w /\ both_read w (fold_left both_spec (map snd os) []).
Proof.
  intros Hs Hbl E V L. assert (Hi : LIM * isize < 2 ^ 64) by (unfold LIM; lia). destruct (init_ok isize bl ltac:(lia) ltac:(lia)) as (l & E' & Ei & Eb & J). rewrite E in E'. injection E' as <-.
  assert (A : agree isize bl (mkW l0 tlist_new 0) [] []) by (constructor; cbn; auto; [apply J; unfold LIM; lia|apply init_good]).
  assert (L0 : zlen (@nil (list Z)) + zlen os < 2 ^ 32) by (cbn; lia). clear E J Ei Eb L. revert A V L0. generalize (@nil (Z * list Z)) as ys. generalize (@nil (list Z)) as xs. generalize (mkW l0 tlist_new 0) as w.
  induction os as [|[[j a] o] os IH]; intros w xs ys A V L; cbn [map snd fold_left both_run all_ok] in *.
  - exists w. split; [reflexivity|]. eapply agree_read; eauto.
  - destruct V as [V0 V]. rewrite zlen_cons in L. pose proof (zlen_nonneg os). pose proof (spec_len isize xs o V0). destruct (do_ok isize bl j a w xs ys o ltac:(lia) Hi A ltac:(lia) V0) as (w' & ys' & -> & A'). cbn [bind]. eapply IH; eauto. lia.
Qed.
Print Assumptions c98_same.
(** the loops of the test *)
Lemma int_len i : zlen (int_bytes i) = 4.
Proof. reflexivity. Qed.
Lemma place_ok n r : 0 <= n < 2 ^ 64 -> 0 <= place n r /\ (place n r < n \/ n = 0 /\ place n r = 0).
Proof. intros N. unfold place. destruct (Z.eqb_spec n 0); [lia|]. pose proof (Z.mod_pos_bound (u64 r) n). lia. Qed.
Section Loops.
Variable rnd : nat -> Z.
Variable al : nat -> alloc.
Variable ta : nat -> option Z.
Hypothesis Al : forall k, al k <> None.
Hypothesis Ta : forall k, ta k <> None.
Lemma append_ok n : forall i w xs ys, agree 4 32 w xs ys -> zlen xs + Z.of_nat n < 2 ^ 32 -> exists w' xs' ys', append_loop al ta n i w = Ret w' /\ agree 4 32 w' xs' ys' /\ zlen xs' = zlen xs + Z.of_nat n.
Proof using All.
  induction n as [|n IH]; intros i w xs ys A L; cbn [append_loop]; [exists w, xs, ys; split; [reflexivity|split; [exact A|lia]]|].
  pose proof (Al (wk w)) as H1. pose proof (Ta (wk w)) as H2. destruct (al (wk w)) as [j|]; [|congruence]. destruct (ta (wk w)) as [a|]; [|congruence].
  destruct (step_add 4 32 ltac:(lia) ltac:(unfold LIM; lia) j (S (wk w)) a w xs ys (int_bytes i) A ltac:(lia) (int_len i)) as (l & t & -> & -> & A'). cbn [bind].
  destruct (IH (i + 1) _ _ _ A') as (w' & xs' & ys' & E & A'' & L'); [zl; lia|]. exists w', xs', ys'. split; [exact E|]. split; [exact A''|]. revert L'. zl. lia.
Qed.
Lemma inserts_ok n : forall i w xs ys, agree 4 32 w xs ys -> zlen xs + Z.of_nat n < 2 ^ 32 -> exists w' xs' ys', insert_loop rnd al ta n i w = Ret w' /\ agree 4 32 w' xs' ys' /\ zlen xs' = zlen xs + Z.of_nat n.
Proof using All.
  induction n as [|n IH]; intros i w xs ys A L; cbn [insert_loop]; [exists w, xs, ys; split; [reflexivity|split; [exact A|lia]]|].
  pose proof (Al (wk w)) as H1. pose proof (Ta (wk w)) as H2. destruct (al (wk w)) as [j|]; [|congruence]. destruct (ta (wk w)) as [a|]; [|congruence].
  destruct (agree_sizes 4 32 w xs ys A) as (-> & -> & Lx). pose proof (zlen_nonneg xs). destruct (place_ok (zlen xs) (rnd (wk w)) ltac:(lia)) as [P0 P1]. set (pos := place (zlen xs) (rnd (wk w))) in *.
  rewrite <- (ztake_zdrop pos xs) in A. destruct (step_ins 4 32 ltac:(lia) ltac:(unfold LIM; lia) j (S (wk w)) a w (ztake pos xs) (zdrop pos xs) ys (int_bytes i) A ltac:(rewrite ztake_zdrop; lia) (int_len i)) as (l & t & ya & yb & E1 & E2 & _ & _ & A').
  rewrite zlen_ztake in E1, E2 by lia. rewrite E1, E2. cbn [bind]. destruct (IH (i + 1) _ _ _ A') as (w' & xs' & ys' & E & A'' & L').
  - zl. rewrite zlen_ztake, zlen_zdrop by lia. lia.
  - exists w', xs', ys'. split; [exact E|]. split; [exact A''|]. revert L'. zl. rewrite zlen_ztake, zlen_zdrop by lia. lia.
Qed.
Lemma deletes_ok n : forall w xs ys, agree 4 32 w xs ys -> Z.of_nat n <= zlen xs -> exists w' xs' ys', delete_loop rnd n w = Ret (Some w') /\ agree 4 32 w' xs' ys' /\ zlen xs' = zlen xs - Z.of_nat n.
Proof using All.
  induction n as [|n IH]; intros w xs ys A L; cbn [delete_loop]; [exists w, xs, ys; split; [reflexivity|split; [exact A|lia]]|].
  destruct (agree_sizes 4 32 w xs ys A) as (-> & -> & Lx). unfold assert. rewrite Z.eqb_refl. destruct (place_ok (zlen xs) (rnd (wk w)) ltac:(lia)) as [P0 P1]. set (pos := place (zlen xs) (rnd (wk w))) in *.
  assert (P : pos < zlen xs) by lia. rewrite (zsplit1 [] pos xs) in A by lia. destruct (step_del 4 32 ltac:(lia) ltac:(unfold LIM; lia) (S (wk w)) w (ztake pos xs) _ (zdrop (pos + 1) xs) ys A) as (l & t & ya & y & yb & E1 & E2 & _ & A').
  rewrite zlen_ztake in E1, E2 by lia. rewrite E1. cbn [bind]. rewrite E2. cbn [bind]. destruct (IH _ _ _ A') as (w' & xs' & ys' & E & A'' & L').
  - zl. rewrite zlen_ztake, zlen_zdrop by lia. lia.
  - exists w', xs', ys'. split; [exact E|]. split; [exact A''|]. revert L'. zl. rewrite zlen_ztake, zlen_zdrop by lia. lia.
Qed.
Lemma compares_ok w xs ys : agree 4 32 w xs ys -> compare w = Ret (Some tt).
Proof using All. intros A. unfold compare. destruct (agree_sizes 4 32 w xs ys A) as (-> & _ & _). pose proof (zlen_nonneg xs). apply (compare_ok 4 32 ltac:(unfold LIM; lia) w xs ys); auto; lia. Qed.
End Loops.
(** C98: tests/tlist_test.c for every size N and all random numbers: as long as there is memory no assertion fails, and
    tlist_free frees each node and the list *)
Theorem c98_test rnd al ta N self : 0 <= N < 2 ^ 30 -> (forall k, al k <> None) -> (forall k, ta k <> None) ->
  exists fr, tlist_test rnd al ta N self = Ret (Some fr) /\ zlen fr = N / 2 + N / 2 - N / 4 + N / 8 + 1.
Proof.
  intros HN Al Ta. unfold tlist_test. destruct (init_ok 4 32 ltac:(lia) ltac:(lia)) as (l & -> & Ei & Eb & J). cbn [bind].
  assert (A : agree 4 32 (mkW l tlist_new 0) [] []) by (constructor; cbn; auto; [apply J; unfold LIM; lia|apply init_good]).
  assert (D : 0 <= N / 2 <= N /\ 0 <= N / 4 <= N / 2 /\ 0 <= N / 8 <= N) by (repeat split; try (apply Z.div_pos; lia); try (apply Z.div_le_upper_bound; lia); apply Z.div_le_lower_bound; lia || idtac; assert (N / 4 = N / 2 / 2) as -> by (rewrite Z.div_div by lia; reflexivity); apply Z.div_le_upper_bound; pose proof (Z.div_pos N 2); lia).
  destruct (append_ok rnd al ta Al Ta (Z.to_nat (N / 2)) 0 _ _ _ A) as (w1 & xs1 & ys1 & -> & A1 & L1); [cbn; lia|]. cbn [bind]. change (zlen (@nil (list Z))) with 0 in L1.
  destruct (inserts_ok rnd al ta Al Ta (Z.to_nat (N / 2)) 0 _ _ _ A1) as (w2 & xs2 & ys2 & -> & A2 & L2); [lia|]. cbn [bind].
  destruct (agree_sizes 4 32 _ _ _ A2) as (E1 & E2 & _). rewrite E1, E2. unfold assert at 1. rewrite Z.eqb_refl. rewrite (compares_ok rnd al ta Al Ta _ _ _ A2). cbn [bind].
  destruct (deletes_ok rnd al ta Al Ta (Z.to_nat (N / 4)) _ _ _ A2) as (w3 & xs3 & ys3 & -> & A3 & L3); [lia|]. cbn [bind].
  destruct (inserts_ok rnd al ta Al Ta (Z.to_nat (N / 8)) 0 _ _ _ A3) as (w4 & xs4 & ys4 & -> & A4 & L4); [lia|]. cbn [bind]. rewrite (compares_ok rnd al ta Al Ta _ _ _ A4). cbn [bind].
  destruct (free_items_ok (wt w4) ys4 (a_tl _ _ _ _ _ A4)) as (t' & F & _). unfold tlist_free. unfold tlist_free_items in F. rewrite F. cbn [bind]. eexists. split; [reflexivity|].
  zl. replace (zlen ys4) with (zlen xs4) by (rewrite <- (a_same _ _ _ _ _ A4); apply zlen_map). rewrite L4, L3, L2, L1. rewrite !Z2Nat.id by lia. lia.
Qed.
Print Assumptions c98_test.
(** without memory for one node the test fails: it does not look at the results of its calls *)
(** the comparison of the test is a real one: it passes if and only if the lists hold the same items *)
Lemma zdrop_cons {X} (d : X) i l : 0 <= i < zlen l -> zdrop i l = znth d l i :: zdrop (i + 1) l.
Proof. intros I. rewrite (zsplit1 d i l I) at 1. rewrite zdrop_app2; rewrite zlen_ztake by lia; [|lia]. now rewrite Z.sub_diag. Qed.
Lemma compare_from m : forall i w xs ys, zlen xs = i + Z.of_nat m -> zlen ys = zlen xs -> 0 <= i ->
  (forall k, 0 <= k < zlen xs -> exists off, sblist_get (wl w) k = Some off /\ zreads (mem (wl w)) off (isz (wl w)) = Ret (znth [] xs k) /\ snd (tlist_get (wt w) k) = Some (znth [] ys k)) ->
  compare_loop m i w = Ret (if list_eq_dec (list_eq_dec Z.eq_dec) (zdrop i ys) (zdrop i xs) then Some tt else None).
Proof.
  induction m as [|m IH]; intros i w xs ys L1 L2 I R; cbn [compare_loop].
  - rewrite !zdrop_all by lia. reflexivity.
  - destruct (R i ltac:(lia)) as (off & -> & Ex & ->). rewrite Ex. cbn [bind]. rewrite (zdrop_cons [] i xs), (zdrop_cons [] i ys) by lia. unfold assert. destruct (list_eq_dec Z.eq_dec (znth [] ys i) (znth [] xs i)) as [Eq|Ne].
    + rewrite (IH (i + 1) w xs ys) by (try assumption; lia). rewrite Eq. destruct (list_eq_dec (list_eq_dec Z.eq_dec) (zdrop (i + 1) ys) (zdrop (i + 1) xs)) as [E|N]; destruct (list_eq_dec (list_eq_dec Z.eq_dec) _ _) as [E'|N']; congruence || reflexivity.
    + destruct (list_eq_dec (list_eq_dec Z.eq_dec) _ _) as [E'|N']; congruence || reflexivity.
Qed.
Theorem c98_compare w xs ys : M_sblist.cnt (wl w) = zlen xs -> zlen ys = zlen xs ->
  (forall k, 0 <= k < zlen xs -> exists off, sblist_get (wl w) k = Some off /\ zreads (mem (wl w)) off (isz (wl w)) = Ret (znth [] xs k) /\ snd (tlist_get (wt w) k) = Some (znth [] ys k)) ->
  exists r, compare w = Ret r /\ (r <> None <-> ys = xs).
Proof.
  intros C L R. unfold compare, sz. rewrite C. pose proof (zlen_nonneg xs). rewrite (compare_from _ 0 w xs ys) by (try assumption; lia). change (zdrop 0 xs) with xs. change (zdrop 0 ys) with ys. eexists. split; [reflexivity|]. destruct (list_eq_dec (list_eq_dec Z.eq_dec) ys xs); split; congruence.
Qed.
Print Assumptions c98_compare.
Theorem c98_test_oom_refuted : exists rnd al ta, (forall k, al k <> None) /\ (forall k, k <> 1%nat -> ta k <> None) /\ tlist_test rnd al ta 4 0 = Ret None.
Proof.
  exists (fun _ => 0), (fun _ => Some (fun _ => 0)), (fun k => if Nat.eqb k 1 then None else Some (Z.of_nat k)). split; [discriminate|]. split; [intros k K; apply Nat.eqb_neq in K; rewrite K; discriminate|]. vm_compute. reflexivity.
Qed.
Print Assumptions c98_test_oom_refuted.
Example c98_ex : tlist_test (fun k => Z.of_nat (k * k)) (fun _ => Some (fun _ => 9)) (fun k => Some (1000 + Z.of_nat k)) 9 77 = Ret (Some [1006; 1005; 1004; 1000; 1010; 1002; 1003; 77]).
Proof. vm_compute. reflexivity. Qed.
Example c98_ex2 : all_ok 1 [] [BAdd [5]; BIns [6] 0; BIns [7] 1; BDel 0; BDel 9] /\ fold_left both_spec [BAdd [5]; BIns [6] 0; BIns [7] 1; BDel 0; BDel 9] [] = [[7]; [5]].
Proof. repeat split; cbn; lia. Qed.
