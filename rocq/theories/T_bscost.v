(** Property C113: the number of comparisons of the binary searches. *)
From Verif Require Import Base M_sblist S_sblist D_sblist P_sblist M_tglist S_tglist D_tglist D_tgsort M_bscost S_bscost P_bscost.

(** whatever the comparator answers, sblist_bsearch on n items compares at most
    log2 n + 1 of them, none twice, none outside the list: k comparisons need 2^(k-1) items *)
Theorem c113_bsearch : forall cmp itemsize blockitems h l xs it, reachable itemsize blockitems h l xs ->
  exists r log, sblist_bsearch_log cmp l it = Ret (r, log) /\ sblist_bsearch cmp l it = Ret r /\
    NoDup log /\ Forall (fun i => 0 <= i < zlen xs) log /\ (xs = [] -> log = []) /\ (xs <> [] -> 2 ^ zlen log <= 2 * zlen xs).
Proof. exact bsearch_log_reach. Qed.
Print Assumptions c113_bsearch.

(** the bound is met: a key below all items costs exactly the k with 2^(k-1) <= n < 2^k *)
Theorem c113_bsearch_worst : forall cmp itemsize blockitems h l xs it, reachable itemsize blockitems h l xs ->
  (forall x, In x xs -> cmp it x < 0) ->
  exists log, sblist_bsearch_log cmp l it = Ret (SIZE_MAX, log) /\ zlen xs < 2 ^ zlen log /\ (xs <> [] -> 2 ^ zlen log <= 2 * zlen xs).
Proof. exact bsearch_log_worst. Qed.
Print Assumptions c113_bsearch_worst.

(** sorted insertion has the same bound, met by an item above all others *)
Theorem c113_insert_sorted : forall cmp al itemsize blockitems h l xs o, reachable itemsize blockitems h l xs -> zlen o = itemsize ->
  exists r l' log, sblist_insert_sorted_log al cmp l o = Ret (r, l', log) /\ sblist_insert_sorted al cmp l o = Ret (r, l') /\
    Forall (fun i => 0 <= i < zlen xs) log /\ (xs = [] -> log = []) /\ (xs <> [] -> 2 ^ zlen log <= 2 * zlen xs) /\
    (xs <> [] -> (forall x, In x xs -> 0 < cmp o x) -> zlen xs < 2 ^ zlen log).
Proof. exact insert_log_reach. Qed.
Print Assumptions c113_insert_sorted.

Theorem c113_tglist_insert_sorted : forall A cmp al isz h (l : tgl A) xs o, treached isz h l xs ->
  exists r l' log, tglist_insert_sorted_log isz al cmp l o = Ret (r, l', log) /\ tglist_insert_sorted isz al cmp l o = Ret (r, l') /\
    Forall (fun i => 0 <= i < zlen xs) log /\ (xs = [] -> log = []) /\ (xs <> [] -> 2 ^ zlen log <= 2 * zlen xs) /\
    (xs <> [] -> (forall x, In x xs -> 0 < cmp o x) -> zlen xs < 2 ^ zlen log).
Proof. exact tg_log_reach. Qed.
Print Assumptions c113_tglist_insert_sorted.

(** no search by comparisons is better: for some absent key it needs a k with n < 2^k *)
Theorem c113_optimal : forall n t, 0 <= n -> correct n t -> exists p, 0 <= p <= n /\ n < 2 ^ asked t (key_before p).
Proof. exact lower. Qed.
Print Assumptions c113_optimal.

(** bmap.h 8-9 "for e.g. 10000 array elements, a binary search will only require 12
    comparisons": every correct search, whichever bsearch libc has, needs 14 for some key *)
Theorem c113_bmap_comment_refuted : forall t, correct 10000 t -> exists p, 0 <= p <= 10000 /\ 14 <= asked t (key_before p).
Proof.
  intros t C. destruct (lower 10000 t ltac:(lia) C) as (p & Hp & B). exists p. split; [exact Hp|].
  destruct (Z_le_gt_dec 14 (asked t (key_before p))) as [|G]; [assumption|]. assert (2 ^ asked t (key_before p) <= 2 ^ 13) by (apply Z.pow_le_mono_r; lia). lia.
Qed.
Print Assumptions c113_bmap_comment_refuted.
(** there are correct searches *)
Example c113_correct : exists t, correct 10000 t.
Proof. eexists. apply halving_correct. lia. Qed.

(** 5 one-byte items: a key below all costs 3 comparisons; inserting a 9 costs 3; inserting
    where the search has just looked compares the same item twice *)
Definition ex113 (a b : list Z) : Z := znth 0 a 0 - znth 0 b 0.
Example c113_ex :
  let l := mkSbl 1 8 5 8 [1; 3; 5; 7; 8; 0; 0; 0] in
  sblist_bsearch_log ex113 l [0] = Ret (SIZE_MAX, [2; 1; 0]) /\
  sblist_insert_sorted_log None ex113 l [9] = Ret (5, mkSbl 1 8 6 8 [1; 3; 5; 7; 8; 9; 0; 0], [2; 3; 4]) /\
  sblist_insert_sorted_log None ex113 l [5] = Ret (2, mkSbl 1 8 6 8 [1; 3; 5; 5; 7; 8; 0; 0], [2; 2]) /\
  tglist_insert_sorted_log 4 None Z.sub (mkTg 3 4 [1; 3; 5; 0]) 9 = Ret (3, mkTg 4 4 [1; 3; 5; 9], [1; 2]).
Proof. repeat split; reflexivity. Qed.
Example c113_reach : exists h l, reachable 1 4 h l [[1]; [3]; [5]].
Proof.
  exists [(Some (fun _ => 0), Add [1]); (None, Add [3]); (None, Add [5])]. eexists. eexists; eexists. split; [reflexivity|]. split; [lia|]. split; [left; lia|].
  split; [vm_compute; reflexivity|]. split; [vm_compute; intuition discriminate|]. split; [vm_compute; reflexivity|]. split; [reflexivity|]. split.
  - intros i Hi. change (zlen [[1]; [3]; [5]]) with 3 in Hi. assert (i = 0 \/ i = 1 \/ i = 2) as [-> | [-> | ->]] by lia; eexists; split; reflexivity.
  - intros i Hi. change (zlen [[1]; [3]; [5]]) with 3 in Hi. unfold sblist_get. cbn [cnt]. destruct (i <? 3) eqn:E; [lia|reflexivity].
Qed.
