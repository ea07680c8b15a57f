(** Properties C85 (sorted insertion into tglist) and C86 (sorting sblist and tglist). *)
From Verif Require Import Base M_sblist S_sblist D_sblist M_tglist S_tglist D_tglist D_tgsort M_sort P_sort.
From Coq Require Import Permutation.

(** C85: whatever the comparator does, tglist_insert_sorted terminates inside the block and
    inserts the item at the index it returns; with an order it keeps a sorted list sorted *)
Theorem c85_insert_sorted : forall A isz h (l : tgl A) xs al cmp o, treached isz h l xs ->
  exists r l', tglist_insert_sorted isz al cmp l o = Ret (r, l') /\
    (r = SIZE_MAX /\ l' = l /\ has_mem al = false \/
     exists p q, xs = p ++ q /\ r = zlen p /\ treads l' (p ++ o :: q) /\ tcapa_ok l' /\
       (total_order cmp -> tsorted cmp xs -> tsorted cmp (p ++ o :: q))).
Proof. exact treached_insert. Qed.
Print Assumptions c85_insert_sorted.
(** a list filled by tglist_insert_sorted only: the accepted items, sorted *)
Theorem c85_sorted_from_empty : forall A isz cmp (h : list (talloc A * A)),
  1 <= isz -> (2 * zlen h + 4) * isz < 2 ^ 64 -> total_order cmp ->
  exists rs l xs, tsorts isz cmp tglist_init h = Ret (rs, l) /\ treads l xs /\ tcapa_ok l /\ tsorted cmp xs /\ length rs = length h /\
    Forall2 (fun r x => r = SIZE_MAX -> has_mem (fst x) = false) rs h /\
    Permutation xs (map (fun rx => snd (snd rx)) (filter (fun rx => negb (fst rx =? SIZE_MAX)) (combine rs h))).
Proof. exact tsorts_reads. Qed.
Print Assumptions c85_sorted_from_empty.
Example c85_example :
  let a := Some (fun _ => 77) in
  tsorts 8 Z.sub tglist_init [(a, 5); (None, 3); (None, 9); (None, 3); (None, 1); (a, 7); (None, 4)] =
  Ret ([0; 0; 2; 0; SIZE_MAX; 3; 2], mkTg 6 8 [3; 3; 4; 5; 7; 9; 77; 77]).
Proof. reflexivity. Qed.
Example c85_order : total_order Z.sub.
Proof. split; intros; lia. Qed.

(** C86: given a qsort that permutes, the list holds the permuted items, the block is not
    exceeded, and a binary search on the result is exact when qsort sorted *)
Theorem c86_sblist_sort : forall cmp itemsize blockitems h l xs qs,
  reachable itemsize blockitems h l xs -> Permutation (qs xs) xs ->
  exists l', sblist_sort qs l = Ret l' /\ reads_as l' (qs xs) /\ capa l' = capa l /\
    (forall it, exists r, sblist_bsearch cmp l' it = Ret r /\
      (0 <= r < zlen xs /\ cmp it (znth [] (qs xs) r) = 0 \/
       r = SIZE_MAX /\ (total_preorder cmp -> sorted cmp (qs xs) -> forall x, In x xs -> cmp it x <> 0))).
Proof. exact reach_sort. Qed.
Print Assumptions c86_sblist_sort.
Theorem c86_tglist_sort : forall A isz h (l : tgl A) xs qs, treached isz h l xs -> Permutation (qs xs) xs ->
  exists l', tglist_sort qs l = Ret l' /\ treads l' (qs xs) /\ tcapa_ok l'.
Proof. exact treached_sort. Qed.
Print Assumptions c86_tglist_sort.
Example c86_example :
  sblist_sort (@rev (list Z)) (mkSbl 2 4 3 4 [5; 6; 3; 4; 1; 2; 99; 98]) = Ret (mkSbl 2 4 3 4 [1; 2; 3; 4; 5; 6; 99; 98]).
Proof. reflexivity. Qed.
Example c86_reached : treached 8 [(Some (fun _ => 7), LAdd 5); (None, LAdd 3)] (mkTg 2 4 [5; 3; 7; 7]) [5; 3] /\
  tglist_sort (@rev Z) (mkTg 2 4 [5; 3; 7; 7]) = Ret (mkTg 2 4 [3; 5; 7; 7]).
Proof.
  split; [|reflexivity]. split; [lia|]. split; [vm_compute; reflexivity|]. split; [vm_compute; tauto|]. eexists. split; [vm_compute; reflexivity|]. split.
  - eapply LrCons; [apply LsAdd|]. eapply LrCons; [apply LsAdd|]. constructor.
  - split; [reflexivity|]. intros i d Hi. change (zlen [5; 3]) with 2 in Hi. assert (i = 0 \/ i = 1) as [-> | ->] by lia; reflexivity.
Qed.
