(** C94, continued: tglist_insert_sorted with an item of the list itself. *)
From Verif Require Import Base M_tglist S_tglist D_tglist P_tglist D_tgsort P_tgsort P_sort M_alias P_alias2 M_aliassort P_aliassort.

Lemma not_full {A} isz al (l : tgl A) x pos d : tcnt l < tcapa l -> tglist_insert isz al l x pos = tglist_insert isz (Some (fun _ => d)) l x pos.
Proof. intros H. unfold tglist_insert, tglist_grow_if_needed. replace (tcnt l =? tcapa l) with false by lia. reflexivity. Qed.
(** C94: in a sorted list whose block need not grow, if a copy of item i would go to another place pos, then an item
    that compares equal to it (item i itself if it is before pos, otherwise the one before item i) is put there and the list stays sorted *)
Theorem c94_insert_sorted_partial : forall A isz h (l : tgl A) xs al cmp i d pos l0, treached isz h l xs -> total_order cmp -> tsorted cmp xs ->
  0 <= i < zlen xs -> tcnt l < tcapa l -> tglist_insert_sorted isz al cmp l (znth d xs i) = Ret (pos, l0) -> pos <> i ->
  exists y l', tglist_insert_sorted_own isz al cmp l i = Ret (pos, l') /\ treads l' (ztake pos xs ++ y :: zdrop pos xs) /\ tsorted cmp (ztake pos xs ++ y :: zdrop pos xs) /\
    In y xs /\ cmp y (znth d xs i) <= 0 /\ cmp (znth d xs i) y <= 0 /\ (i < pos -> y = znth d xs i) /\ (pos < i -> y = znth d xs (i - 1)).
Proof.
  intros A isz h l xs al cmp i d pos0 l0 R TO TS Hi Hc E Ne. pose proof R as (Hz & L & _). destruct (treached_rep _ _ _ _ _ R) as [T Ln]. assert (HL : (2 * zlen xs + 4) * isz < 2 ^ 64) by nia.
  destruct (copy_pos isz cmp Hz al l xs _ _ _ T HL E) as (pos & Ep & Rp & [[G _]|[G ->]]). { revert G. unfold tglist_grow_if_needed. replace (tcnt l =? tcapa l) with false by lia. discriminate. }
  assert (S1 : (forall j, 0 <= j < pos -> cmp (znth d xs j) (znth d xs i) <= 0) /\ (forall j, pos <= j < zlen xs -> cmp (znth d xs i) (znth d xs j) <= 0)). { destruct (pos_found isz cmp Hz d l xs (znth d xs i) T HL) as (p' & E' & _ & H). rewrite Ep in E'. injection E' as <-. exact (H TO TS). }
  destruct S1 as [B1 B2]. rewrite (own_is isz cmp Hz al l xs i d pos T HL Hi Ep Rp). replace (_ =? 0) with false by lia. replace (tcnt l =? tcapa l) with false by lia. replace (i =? pos) with false by lia. cbn [orb].
  set (k := if i <=? pos then i else i - 1). destruct (zsplit pos xs) as (p & q & -> & Lp); [lia|]. subst pos.
  rewrite (insert_own_ok isz Hz al l p q i d T HL Hi). fold k.
  rewrite (not_full isz al l (znth d (p ++ q) k) (zlen p) d) by lia.
  destruct (insert_ok isz Hz (Some (fun _ => d)) l p q (znth d (p ++ q) k) (zlen p) T HL eq_refl) as (r & l' & -> & [(_ & _ & M)|[-> T']]); [discriminate M|]. cbn [bind].
  rewrite ztake_app_exact, zdrop_app_exact. exists (znth d (p ++ q) k), l'. split; [reflexivity|]. split; [apply (trep_reads isz _ _ T')|].
  assert (RF : forall x, cmp x x <= 0). { intros x. destruct TO as [Ha _]. specialize (Ha x x). lia. }
  assert (Hk : 0 <= k < zlen (p ++ q)) by (unfold k; destruct (i <=? zlen p) eqn:Q; lia).
  assert (C1 : cmp (znth d (p ++ q) k) (znth d (p ++ q) i) <= 0). { unfold k. destruct (i <=? zlen p) eqn:Q; [apply RF|]. apply tsorted_nth; auto; lia. }
  assert (C2 : cmp (znth d (p ++ q) i) (znth d (p ++ q) k) <= 0). { unfold k. destruct (i <=? zlen p) eqn:Q; [apply RF|]. apply B2. lia. }
  pose proof TO as [_ Ht]. split.
  - pose proof (proj1 (tsorted_app A cmp p q) TS) as (S1 & S2 & S3). apply tsorted_app. split; [exact S1|]. split.
    + constructor; [|exact S2]. apply Forall_forall. intros x I. destruct (In_znth d _ _ I) as (j & Hj & <-). apply (Ht _ _ _ C1). specialize (B2 (zlen p + j)). rewrite (znth_app2 d p q (zlen p + j)) in B2 by lia. replace (zlen p + j - zlen p) with j in B2 by lia. apply B2. revert Hj. zl. lia.
    + intros x y I [<-|J]; [|auto]. destruct (In_znth d _ _ I) as (j & Hj & <-). specialize (B1 j Hj). rewrite (znth_app1 d p q j) in B1 by lia. exact (Ht _ _ _ B1 C2).
  - split; [now apply znth_In|]. split; [exact C1|]. split; [exact C2|]. split; intros Q; unfold k; [now replace (i <=? zlen p) with true by lia|now replace (i <=? zlen p) with false by lia].
Qed.
Print Assumptions c94_insert_sorted_partial.
(** C94: undefined when the block grows, and when the copy would go to the item's own place; if memory lacks, the list is left alone *)
Theorem c94_insert_sorted_refuted : forall A isz h (l : tgl A) xs al cmp i d pos l0, treached isz h l xs ->
  0 <= i < zlen xs -> tglist_insert_sorted isz al cmp l (znth d xs i) = Ret (pos, l0) ->
  (pos = SIZE_MAX -> tglist_insert_sorted_own isz al cmp l i = Ret (SIZE_MAX, l)) /\
  (pos <> SIZE_MAX -> tcnt l = tcapa l \/ pos = i -> tglist_insert_sorted_own isz al cmp l i = UB).
Proof.
  intros A isz h l xs al cmp i d pos0 l0 R Hi E. pose proof R as (Hz & L & _). destruct (treached_rep _ _ _ _ _ R) as [T Ln]. assert (HL : (2 * zlen xs + 4) * isz < 2 ^ 64) by nia.
  destruct (copy_pos isz cmp Hz al l xs _ _ _ T HL E) as (pos & Ep & Rp & HG). pose proof (trep_u64 isz Hz _ _ T) as [_ Hu]. assert (HX : zlen xs < 2 ^ 63) by nia. rewrite (own_is isz cmp Hz al l xs i d pos T HL Hi Ep Rp). destruct HG as [[G ->]|[G ->]].
  - rewrite G. split; [reflexivity|]. intros N. now contradiction N.
  - replace (_ =? 0) with false by lia. split; [unfold SIZE_MAX; lia|]. intros _ [H|H]; [replace (tcnt l =? tcapa l) with true by lia|replace (i =? pos) with true by lia; rewrite orb_true_r]; reflexivity.
Qed.
Print Assumptions c94_insert_sorted_refuted.
(** C94: in a sorted list without items that compare equal, it is always undefined *)
Theorem c94_insert_sorted_distinct_refuted : forall A isz h (l : tgl A) xs al cmp i d, treached isz h l xs -> total_order cmp -> tsorted cmp xs ->
  0 <= i < zlen xs -> (forall j, 0 <= j < zlen xs -> j <> i -> cmp (znth d xs i) (znth d xs j) <> 0) -> has_mem al = true -> tglist_insert_sorted_own isz al cmp l i = UB.
Proof.
  intros A isz h l xs al cmp i d R TO TS Hi U M. pose proof R as (Hz & L & _). destruct (treached_rep _ _ _ _ _ R) as [T Ln]. assert (HL : (2 * zlen xs + 4) * isz < 2 ^ 64) by nia.
  assert (Ep : tglist_sorted_insert_pos_impl cmp l (znth d xs i) = Ret i). { unfold tglist_sorted_insert_pos_impl. rewrite (r_cnt _ _ _ T). replace (zlen xs =? 0) with false by lia. rewrite u64_id by nia. apply (pos_self isz cmp Hz d xs); auto; lia. }
  rewrite (own_is isz cmp Hz al l xs i d i T HL Hi Ep ltac:(lia)). rewrite Z.eqb_refl, orb_true_r. destruct (grow_ok isz Hz al l _ T HL) as [r [l' [EG [[-> [-> Ha]]|[-> [HT' Hlt]]]]]]; rewrite EG; [congruence|reflexivity].
Qed.
Print Assumptions c94_insert_sorted_distinct_refuted.
(** pairs ordered by their first component: item 2 is inserted, but (5, 11) is there twice now, (5, 12) is not *)
Example c94_sorted_ex : let cmp (x y : Z * Z) := fst x - fst y in let al := Some (fun _ => (0, 0)) in let l := mkTg 3 4 [(5, 10); (5, 11); (5, 12); (0, 0)] in
  tglist_insert_sorted_own 16 al cmp l 2 = Ret (1, mkTg 4 4 [(5, 10); (5, 11); (5, 11); (5, 12)]) /\
  tglist_insert_sorted_own 16 al cmp l 0 = Ret (1, mkTg 4 4 [(5, 10); (5, 10); (5, 11); (5, 12)]) /\ tglist_insert_sorted_own 16 al cmp l 1 = UB /\
  tglist_insert_sorted_own 16 al cmp (mkTg 4 4 [(1, 0); (5, 10); (5, 11); (5, 12)]) 3 = UB /\ tglist_insert_sorted_own 16 None cmp (mkTg 4 4 [(1, 0); (5, 10); (5, 11); (5, 12)]) 3 = Ret (SIZE_MAX, mkTg 4 4 [(1, 0); (5, 10); (5, 11); (5, 12)]).
Proof. repeat split. Qed.
