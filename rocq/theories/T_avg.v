(** C122: what reading an item of a tlist costs on average. *)
From Coq Require Import Permutation.
From Verif Require Import Base M_tlist S_tlist D_tlist S_treap M_tlcost S_avg P_avg D_avg P_avgtl.

(** over all the ways to put n items into a new list one after another, reading item i visits
    1/1 + 1/2 + ... + 1/(i + 1) + 1/1 + 1/2 + ... + 1/(n - i) - 1 nodes on average: all these costs are
    added up, with the number of ways in place of 1.  It can be divided by all of the 1, ..., n. *)
Theorem c122_average A seed (items : list (Z * A)) i ws : 0 <= seed < 2 ^ 32 -> zlen items <= 2 ^ 31 -> 0 <= i < zlen items -> all_ways (zlen items) ws ->
  (forall d, 1 <= d <= zlen items -> (d | zlen ws)) /\
  exists cs, Forall2 (built_cost seed items i) ws cs /\
    zsum cs = harmonic (zlen ws) (Z.to_nat (i + 1)) + harmonic (zlen ws) (Z.to_nat (zlen items - i)) - zlen ws.
Proof.
  intros Hs Hn Hi HW. set (n := length items). assert (Hz : zlen items = Z.of_nat n) by reflexivity. rewrite Hz in *. pose proof (ord_all seed Hs n ws Hn HW) as O. pose proof (ps_nodup seed Hs n Hn) as N.
  assert (Lp : zlen (ps seed n) = Z.of_nat n) by (unfold zlen; now rewrite ps_len).
  split. { intros d Hd. pose proof (divides _ N _ O d) as D. rewrite zlen_map in D. apply D. lia. }
  exists (map (fun w => 1 + right_recs (Z.to_nat i) (ord seed 0 [] w) + left_recs (Z.to_nat i) (ord seed 0 [] w)) ws). split.
  - assert (X : forall w, In w ws -> way (Z.of_nat n) w) by (intros w Hw; now apply HW). clear -Hs Hn Hi X Hz. induction ws as [|w ws IH]; [constructor|]. cbn [map]. constructor; [|apply IH; intros u Hu; apply X; now right].
    apply cost_ord; [exact Hs|lia|rewrite Hz; apply X; now left|lia].
  - pose proof (sum_cost _ N _ O (Z.to_nat i) ltac:(rewrite ps_len; lia)) as S. rewrite map_map, zlen_map, ps_len in S. rewrite S. f_equal. f_equal; f_equal; lia.
Qed.
(** so it is never more than 1 + log2(i + 1) + log2(n - i) on average *)
Theorem c122_logarithmic A seed (items : list (Z * A)) i ws : 0 <= seed < 2 ^ 32 -> zlen items <= 2 ^ 31 -> 0 <= i < zlen items -> all_ways (zlen items) ws ->
  exists cs, Forall2 (built_cost seed items i) ws cs /\ zsum cs <= zlen ws * (1 + Z.log2 (i + 1) + Z.log2 (zlen items - i)).
Proof.
  intros Hs Hn Hi HW. destruct (c122_average A seed items i ws Hs Hn Hi HW) as (_ & cs & F & E). exists cs. split; [exact F|]. rewrite E. pose proof (zlen_nonneg ws).
  pose proof (harm_log (zlen ws) (Z.to_nat (i + 1)) ltac:(lia) ltac:(lia)) as H1. pose proof (harm_log (zlen ws) (Z.to_nat (zlen items - i)) ltac:(lia) ltac:(lia)) as H2. rewrite Z2Nat.id in H1, H2 by lia. nia.
Qed.
(** and a single list may be as bad as a linked list: some way makes reading item 0 visit all n nodes *)
Theorem c122_worst A seed (items : list (Z * A)) : 0 <= seed < 2 ^ 32 -> 0 < zlen items <= 2 ^ 31 ->
  exists w, way (zlen items) w /\ built_cost seed items 0 w (zlen items).
Proof.
  intros Hs Hn. set (n := length items). assert (Hz : zlen items = Z.of_nat n) by reflexivity. destruct (sort_exists (ps seed n)) as (l & HP & Sl). destruct (ord_surj seed n l HP) as (w & W & E).
  exists w. split; [exact W|]. pose proof (cost_ord seed Hs items w 0 ltac:(lia) W ltac:(lia)) as C. change (Z.to_nat 0) with 0%nat in C. rewrite E in C. unfold right_recs, left_recs in C. cbn [firstn rev records] in C.
  pose proof (Permutation_length HP) as L. rewrite ps_len in L. pose proof (Permutation_NoDup HP (ps_nodup seed Hs n ltac:(lia))) as N. destruct l as [|x l]; [cbn in L; lia|]. cbn [nth skipn] in C. rewrite records_sorted in C by assumption.
  replace (zlen items) with (1 + zlen l + 0); [exact C|]. rewrite Hz. unfold zlen. cbn [length] in L. lia.
Qed.
(** there are n! ways *)
Theorem c122_ways n : exists ws, all_ways (Z.of_nat n) ws /\ forall ws', all_ways (Z.of_nat n) ws' -> zlen ws' = Z.of_nat (fact n) /\ Permutation ws ws'.
Proof.
  destruct (ways_fact n) as (ws & H & _). exists ws. split; [exact H|]. intros ws' H'. split; [now apply ways_number|]. apply NoDup_Permutation; [apply H|apply H'|]. intros w. destruct H as [_ H], H' as [_ H']. rewrite H, H'. reflexivity.
Qed.
Print Assumptions c122_average.
Print Assumptions c122_logarithmic.
Print Assumptions c122_worst.
Print Assumptions c122_ways.
(** three items and the six ways: reading item 0 visits 11 nodes in all, reading item 1 visits 12 *)
Definition ex_items : list (Z * Z) := [(100, 7); (200, 8); (300, 9)].
Definition ex_ways : list (list Z) := [[0; 0; 0]; [0; 0; 1]; [0; 0; 2]; [0; 1; 0]; [0; 1; 1]; [0; 1; 2]].
Definition ex_cost (i : Z) (w : list Z) : Z := match trun (mkTl 384 Leaf) (insertions ex_items w) with Ret (_, t) => snd (tlist_get_cost t i) | _ => -1 end.
Example c122_ex : map (ex_cost 0) ex_ways = [2; 3; 2; 2; 1; 1] /\ map (ex_cost 1) ex_ways = [3; 2; 1; 1; 2; 3] /\
  harmonic 6 1 + harmonic 6 3 - 6 = 2 + 3 + 2 + 2 + 1 + 1 /\ harmonic 6 2 + harmonic 6 2 - 6 = 3 + 2 + 1 + 1 + 2 + 3.
Proof. vm_compute. auto. Qed.
Example c122_ex_ways : all_ways 3 ex_ways.
Proof.
  destruct (ways_fact 3) as (ws & [N V] & L). split; [repeat constructor; cbn; intuition discriminate|]. intros w. split.
  - intros H. cbn in H. repeat (destruct H as [<-|H]; [split; [reflexivity|intros k Hk; assert (D : k = 0 \/ k = 1 \/ k = 2) by lia; destruct D as [->|[->| ->]]; split; vm_compute; discriminate]|]). destruct H.
  - intros [Lw H]. pose proof (H 0 ltac:(lia)) as H0. pose proof (H 1 ltac:(lia)) as H1. pose proof (H 2 ltac:(lia)) as H2. destruct w as [|a [|b [|c [|]]]]; unfold zlen in Lw; cbn [length] in Lw; try lia.
    change (znth 0 [a; b; c] 0) with a in H0. change (znth 0 [a; b; c] 1) with b in H1. change (znth 0 [a; b; c] 2) with c in H2.
    assert (a = 0) as -> by lia. assert (Db : b = 0 \/ b = 1) by lia. assert (Dc : c = 0 \/ c = 1 \/ c = 2) by lia. destruct Db as [->| ->], Dc as [->|[->| ->]]; cbn; tauto.
Qed.
