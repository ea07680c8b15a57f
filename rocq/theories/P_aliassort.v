(** Proofs about tglist_insert_sorted with an item of the list itself. *)
From Verif Require Import Base M_tglist S_tglist D_tglist P_tglist D_tgsort P_tgsort P_sort M_alias P_alias2 M_aliassort.

Section S.
Context {A : Type}.
Variables (isz : Z) (cmp : A -> A -> Z).
Hypothesis Hisz : 1 <= isz.
Notation trep := (trep isz).
Lemma grow_fails al (l : tgl A) : fst (tglist_grow_if_needed isz al l) = 0 -> snd (tglist_grow_if_needed isz al l) = l.
Proof using Type. unfold tglist_grow_if_needed. destruct (tcnt l =? tcapa l); [|intros H; discriminate H]. destruct al; [intros H; discriminate H|reflexivity]. Qed.
Lemma pos_found d l xs o : trep l xs -> (2 * zlen xs + 4) * isz < 2 ^ 64 -> exists pos, tglist_sorted_insert_pos_impl cmp l o = Ret pos /\ 0 <= pos <= zlen xs /\
  (total_order cmp -> tsorted cmp xs -> (forall i, 0 <= i < pos -> cmp (znth d xs i) o <= 0) /\ (forall i, pos <= i < zlen xs -> cmp o (znth d xs i) <= 0)).
Proof using Hisz.
  intros T L. unfold tglist_sorted_insert_pos_impl. rewrite (r_cnt _ _ _ T). pose proof (zlen_nonneg xs). assert (HX : zlen xs < 2 ^ 63) by nia.
  destruct (zlen xs =? 0) eqn:E; [eexists; split; [reflexivity|]; split; [lia|]; intros; split; intros; lia|]. rewrite u64_id by lia. destruct (tg_pos_ok isz cmp Hisz d l xs o (S (Z.to_nat (zlen xs))) 0 (zlen xs - 1)) as (r & -> & Hr & HR); auto; try lia.
  eexists; split; [reflexivity|]. split; [lia|]. intros; apply HR; auto; intros; lia.
Qed.
Lemma own_is al l xs i d pos : trep l xs -> (2 * zlen xs + 4) * isz < 2 ^ 64 -> 0 <= i < zlen xs -> tglist_sorted_insert_pos_impl cmp l (znth d xs i) = Ret pos -> 0 <= pos <= zlen xs ->
  tglist_insert_sorted_own isz al cmp l i =
    if fst (tglist_grow_if_needed isz al l) =? 0 then Ret (SIZE_MAX, l)
    else if (tcnt l =? tcapa l) || (i =? pos) then UB
    else let* (_, l) := tglist_insert_own isz al l i pos in Ret (pos, l).
Proof using Hisz.
  intros HT HL Hi Hp Rp. unfold tglist_insert_sorted_own. rewrite (get_znth isz l xs i d HT Hi). cbn [bind]. rewrite Hp. cbn [bind]. pose proof (trep_u64 isz Hisz _ _ HT) as [_ Hu]. assert (HX : zlen xs < 2 ^ 63) by nia. replace (pos =? SIZE_MAX) with false by (unfold SIZE_MAX; lia).
  pose proof (grow_fails al l) as GF. unfold tglist_insert_own. destruct (grow_ok isz Hisz al l _ HT HL) as [r [l' [EG [[-> [-> Ha]]|[-> [HT' Hlt]]]]]]; rewrite EG in *; cbn [fst snd Z.eqb negb]; [reflexivity|].
  destruct (zsplit pos xs) as (p & q & -> & Lp); [lia|]. subst pos. destruct (troom_ok isz Hisz l' p q HT' Hlt) as [l2 [a [ER [HT2 [Hq Hn]]]]]. unfold room in ER.
  destruct (tglist_memmove_impl _ _ _ _) as [[r l1]| |]; cbn [bind] in *; try discriminate. injection ER as -> ER. rewrite ER. cbn [Z.eqb orb].
  replace (tcnt l2 =? 0) with false by lia. destruct ((tcnt l =? tcapa l) || (i =? zlen p)); [reflexivity|]. destruct (tglist_get l2 i) as [x| |]; cbn [bind]; [|reflexivity|reflexivity]. destruct (tglist_set l2 x (zlen p)) as [[? ?]| |]; reflexivity.
Qed.
(** the copy: where tglist_insert_sorted puts it *)
Lemma copy_pos al l xs o pos0 l0 : trep l xs -> (2 * zlen xs + 4) * isz < 2 ^ 64 -> tglist_insert_sorted isz al cmp l o = Ret (pos0, l0) ->
  exists pos, tglist_sorted_insert_pos_impl cmp l o = Ret pos /\ 0 <= pos <= zlen xs /\
    (fst (tglist_grow_if_needed isz al l) = 0 /\ pos0 = SIZE_MAX \/ fst (tglist_grow_if_needed isz al l) <> 0 /\ pos0 = pos).
Proof using Hisz.
  intros T L. destruct (pos_found o l xs o T L) as (pos & E & R & _). unfold tglist_insert_sorted. rewrite E. cbn [bind]. pose proof (trep_u64 isz Hisz _ _ T) as [_ Hu]. assert (HX : zlen xs < 2 ^ 63) by nia. replace (pos =? SIZE_MAX) with false by (unfold SIZE_MAX; lia). intros E0. exists pos. split; [reflexivity|]. split; [exact R|].
  destruct (zsplit pos xs) as (p & q & -> & Lp); [lia|]. unfold tglist_insert in E0. destruct (grow_ok isz Hisz al l _ T L) as [r [l' [EG [[-> [-> Ha]]|[-> [HT' Hlt]]]]]]; rewrite EG in *; cbn [fst snd Z.eqb negb bind] in *; [left; injection E0 as <- _; auto|right].
  split; [lia|]. subst pos. destruct (troom_ok isz Hisz l' p q HT' Hlt) as [l2 [a [ER [HT2 [Hq Hn]]]]]. unfold room in ER.
  destruct (tglist_memmove_impl _ _ _ _) as [[r l1]| |]; cbn [bind] in *; try discriminate. injection ER as -> ER. rewrite ER in E0. cbn [Z.eqb orb] in E0. replace (tcnt l2 =? 0) with false in E0 by lia.
  unfold tglist_set in E0. destruct (zwrite (tmem l2) (zlen p) o); cbn [bind Z.eqb negb] in E0; congruence.
Qed.
(** a list where nothing else compares equal: the search ends at the item itself *)
Lemma pos_self d xs l i fuel : trep l xs -> total_order cmp -> tsorted cmp xs -> 0 <= i < zlen xs -> (forall j, 0 <= j < zlen xs -> j <> i -> cmp (znth d xs i) (znth d xs j) <> 0) ->
  forall hi lo, 0 <= hi <= i -> i <= lo < zlen xs -> lo - hi < Z.of_nat fuel -> tg_pos_loop fuel cmp l (znth d xs i) hi lo = Ret i.
Proof using Hisz.
  intros T TO TS Hi U. induction fuel as [|fuel IH]; intros hi lo Hh Hlo Hf; [lia|]. cbn [tg_pos_loop]. pose proof (proj2 (trep_u64 isz Hisz _ _ T)) as HX. rewrite (u64_id (lo - hi)) by lia. rewrite u64_id by lia.
  set (c := hi + (lo - hi) / 2). assert (Hc : hi <= c <= lo) by lia. rewrite (get_znth isz l xs c d) by (auto; lia). cbn [bind].
  assert (R : cmp (znth d xs i) (znth d xs i) = 0). { destruct TO as [Ha _]. specialize (Ha (znth d xs i) (znth d xs i)). lia. }
  destruct (hi =? lo) eqn:E.
  - assert (c = i) by lia. assert (lo = i) by lia. clearbody c. subst c lo. rewrite R. reflexivity.
  - pose proof (U c ltac:(lia)) as Uc. destruct (Z.lt_trichotomy c i) as [Q|[Q|Q]].
    + pose proof (tsorted_nth A cmp d xs TS c i ltac:(lia) ltac:(lia)) as S1. assert (0 < cmp (znth d xs i) (znth d xs c)). { destruct TO as [Ha _]. pose proof (Ha (znth d xs i) (znth d xs c)) as A1. pose proof (Ha (znth d xs c) (znth d xs i)) as A2. specialize (Uc ltac:(lia)). lia. }
      replace (cmp _ _ <? 0) with false by lia. replace (0 <? cmp _ _) with true by lia. rewrite (u64_id (c + 1)) by lia. replace (lo <? c + 1) with false by lia. apply IH; lia.
    + clearbody c. subst c. rewrite R. change (0 <? 0) with false. cbv iota. replace (i <? i) with false by lia. apply IH; lia.
    + pose proof (tsorted_nth A cmp d xs TS i c ltac:(lia) ltac:(lia)) as S1. specialize (Uc ltac:(lia)). replace (cmp _ _ <? 0) with true by lia. replace (c =? 0) with false by lia. rewrite (u64_id (c - 1)) by lia. replace (c - 1 <? hi) with false by lia. apply IH; lia.
Qed.
End S.
