(** C122: what inserting into and deleting from a tlist costs. *)
From Coq Require Import Permutation.
From Verif Require Import Base M_tlist S_tlist D_tlist S_treap D_treap M_tlcost M_tlcost2 P_treap S_avg P_avg D_avg D_avg2 P_avgtl P_avg2.

(** merging makes one call for each priority down the two edges that meet, until one of them is used up *)
Theorem c122_merge_calls A (l r : tree A) : heap_ordered l -> heap_ordered r -> merge_calls l r =
  match right_edge l, left_edge r with
  | [], _ => 1 | _, [] => 1
  | s, t => 1 + above (last t 0) s + at_least (last s 0) t end.
Proof. apply merge_exact. Qed.
(** any list a program can build: how many calls of the recursive functions an insertion takes, in
    terms of how often a new greatest priority appears on the way from the place to both ends *)
Theorem c122_insert_calls A seed (h : list (S_tlist.top A)) t p q v : 0 <= seed < 2 ^ 32 -> reach seed h t -> Z.of_nat (length h) <= 2 ^ 31 -> inorder (troot t) = p ++ q ->
  3 + records (-1) (rev (map prio p)) + records (-1) (map prio q) <= tlist_insert_calls t (zlen p) v <= 5 + 3 * records (-1) (rev (map prio p)) + 2 * records (-1) (map prio q).
Proof. intros S R L E. destruct (reach_good _ _ _ R) as (xs & G). exact (insert_one t xs p q v G (reach_distinct' _ _ _ S R L) E). Qed.
Theorem c122_delete_calls A seed (h : list (S_tlist.top A)) t p x q : 0 <= seed < 2 ^ 32 -> reach seed h t -> Z.of_nat (length h) <= 2 ^ 31 -> inorder (troot t) = p ++ x :: q ->
  2 + 2 * (records (prio x) (map prio q) + records (prio x) (rev (map prio p))) <= tlist_delete_calls t (zlen p) <= 3 + 2 * (records (prio x) (map prio q) + records (prio x) (rev (map prio p))) + records (-1) (rev (map prio p)) + records (-1) (map prio q).
Proof. intros S R L E. destruct (reach_good _ _ _ R) as (xs & G). exact (delete_one t xs p x q G (reach_distinct' _ _ _ S R L) E). Qed.
(** on average over all the ways to build a list of n items, an insertion at i takes at least
    3 + (1/1 + ... + 1/i) + (1/1 + ... + 1/(n - i)) and at most 5 + 3 (1/1 + ... + 1/i) + 2 (1/1 + ... + 1/(n - i)) calls *)
Theorem c122_insert_average A seed (items : list (Z * A)) i v ws : 0 <= seed < 2 ^ 32 -> zlen items <= 2 ^ 31 -> 0 <= i <= zlen items -> all_ways (zlen items) ws ->
  exists cs, Forall2 (insert_cost seed items i v) ws cs /\
    3 * zlen ws + harmonic (zlen ws) (Z.to_nat i) + harmonic (zlen ws) (Z.to_nat (zlen items - i)) <= zsum cs <= 5 * zlen ws + 3 * harmonic (zlen ws) (Z.to_nat i) + 2 * harmonic (zlen ws) (Z.to_nat (zlen items - i)).
Proof.
  intros Hs Hn Hi HW. set (n := length items). assert (Hz : zlen items = Z.of_nat n) by reflexivity. rewrite Hz in *. pose proof (ord_all seed Hs n ws Hn HW) as O. pose proof (ps_nodup seed Hs n Hn) as N. pose proof (ps_pos seed n) as F.
  destruct (choose_costs (insert_cost seed items i v) (fun w => 3 + records (-1) (rev (firstn (Z.to_nat i) (ord seed 0 [] w))) + records (-1) (skipn (Z.to_nat i) (ord seed 0 [] w))) (fun w => 5 + 3 * records (-1) (rev (firstn (Z.to_nat i) (ord seed 0 [] w))) + 2 * records (-1) (skipn (Z.to_nat i) (ord seed 0 [] w))) ws) as (cs & C & L1 & L).
  { intros w Hw. apply insert_way; [exact Hs|lia|rewrite Hz; now apply HW|lia]. }
  exists cs. split; [exact C|]. rewrite !zsum_add in L, L1. rewrite !zsum_scale in L.
  pose proof (sum_gap_right _ N F _ O (Z.to_nat i) ltac:(rewrite ps_len; lia)) as S1. pose proof (sum_gap_left _ N F _ O (Z.to_nat i) ltac:(rewrite ps_len; lia)) as S2. rewrite map_map, zlen_map in S1, S2. rewrite ps_len in S1. rewrite ?S1, ?S2 in L, L1.
  rewrite (zsum_const 5) in L by auto. rewrite (zsum_const 3) in L1 by auto. replace (Z.to_nat (Z.of_nat n - i)) with (n - Z.to_nat i)%nat by lia. unfold zlen in *. lia.
Qed.
Theorem c122_delete_average A seed (items : list (Z * A)) i ws : 0 <= seed < 2 ^ 32 -> zlen items <= 2 ^ 31 -> 0 <= i < zlen items -> all_ways (zlen items) ws ->
  exists cs, Forall2 (delete_cost seed items i) ws cs /\
    2 * harmonic (zlen ws) (Z.to_nat (i + 1)) + 2 * harmonic (zlen ws) (Z.to_nat (zlen items - i)) - 2 * zlen ws <= zsum cs <= 2 * harmonic (zlen ws) (Z.to_nat (i + 1)) + 2 * harmonic (zlen ws) (Z.to_nat (zlen items - i)) + harmonic (zlen ws) (Z.to_nat i) + harmonic (zlen ws) (Z.to_nat (zlen items - i - 1)) - zlen ws.
Proof.
  intros Hs Hn Hi HW. set (n := length items). assert (Hz : zlen items = Z.of_nat n) by reflexivity. rewrite Hz in *. pose proof (ord_all seed Hs n ws Hn HW) as O. pose proof (ps_nodup seed Hs n Hn) as N. pose proof (ps_pos seed n) as F.
  destruct (choose_costs (delete_cost seed items i) (fun w => 2 + 2 * (right_recs (Z.to_nat i) (ord seed 0 [] w) + left_recs (Z.to_nat i) (ord seed 0 [] w))) (fun w => 3 + 2 * (right_recs (Z.to_nat i) (ord seed 0 [] w) + left_recs (Z.to_nat i) (ord seed 0 [] w)) + records (-1) (rev (firstn (Z.to_nat i) (ord seed 0 [] w))) + records (-1) (skipn (S (Z.to_nat i)) (ord seed 0 [] w))) ws) as (cs & C & L1 & L).
  { intros w Hw. apply delete_way; [exact Hs|lia|rewrite Hz; now apply HW|lia]. }
  exists cs. split; [exact C|]. rewrite !zsum_add, zsum_scale, zsum_add in L. rewrite !zsum_add, zsum_scale, zsum_add in L1.
  pose proof (sum_gap_right _ N F _ O (S (Z.to_nat i)) ltac:(rewrite ps_len; lia)) as S1. pose proof (sum_gap_left _ N F _ O (Z.to_nat i) ltac:(rewrite ps_len; lia)) as S2. rewrite map_map, zlen_map in S1, S2. rewrite ps_len in S1. rewrite ?S1, ?S2 in L, L1.
  pose proof (sum_right _ N _ O (Z.to_nat i) ltac:(rewrite ps_len; lia)) as S3. pose proof (sum_left _ N _ O (Z.to_nat i) ltac:(rewrite ps_len; lia)) as S4. rewrite map_map, zlen_map in S3, S4. rewrite ps_len in S3. rewrite ?S3, ?S4 in L, L1.
  rewrite (zsum_const 3) in L by auto. rewrite (zsum_const 2) in L1 by auto. replace (Z.to_nat (Z.of_nat n - i)) with (n - Z.to_nat i)%nat by lia. replace (Z.to_nat (Z.of_nat n - i - 1)) with (n - S (Z.to_nat i))%nat by lia. replace (Z.to_nat (i + 1)) with (Z.to_nat i + 1)%nat by lia. unfold zlen in *. lia.
Qed.
Print Assumptions c122_merge_calls.
Print Assumptions c122_insert_calls.
Print Assumptions c122_delete_calls.
Print Assumptions c122_insert_average.
Print Assumptions c122_delete_average.
Definition ex_items : list (Z * Z) := [(100, 7); (200, 8); (300, 9)].
Definition ex_ways : list (list Z) := [[0; 0; 0]; [0; 0; 1]; [0; 0; 2]; [0; 1; 0]; [0; 1; 1]; [0; 1; 2]].
Definition ex_run (f : tlist Z -> Z) (w : list Z) : Z := match trun (mkTl 384 Leaf) (insertions ex_items w) with Ret (_, t) => f t | _ => -1 end.
Example c122_ex_calls : map (ex_run (fun t => tlist_insert_calls t 1 5)) ex_ways = [10; 9; 7; 7; 8; 10] /\ map (ex_run (fun t => tlist_delete_calls t 1)) ex_ways = [6; 4; 4; 4; 4; 6] /\
  3 * 6 + harmonic 6 1 + harmonic 6 2 <= 10 + 9 + 7 + 7 + 8 + 10 <= 5 * 6 + 3 * harmonic 6 1 + 2 * harmonic 6 2 /\ 2 * harmonic 6 2 + 2 * harmonic 6 2 - 2 * 6 <= 6 + 4 + 4 + 4 + 4 + 6 <= 2 * harmonic 6 2 + 2 * harmonic 6 2 + harmonic 6 1 + harmonic 6 1 - 6.
Proof. vm_compute. repeat split; discriminate. Qed.
Definition ex_l : tree Z := Node 100 9 3 0 Leaf (Node 200 5 2 0 Leaf (Node 300 2 1 0 Leaf Leaf)).
Definition ex_r : tree Z := Node 400 7 2 0 (Node 500 3 1 0 Leaf Leaf) Leaf.
Example c122_ex_merge : heap_ordered ex_l /\ heap_ordered ex_r /\ merge_calls ex_l ex_r = 5 /\ right_edge ex_l = [9; 5; 2] /\ left_edge ex_r = [7; 3] /\ above 3 [9; 5; 2] = 2 /\ at_least 2 [7; 3] = 2.
Proof. cbn. repeat split; lia. Qed.
