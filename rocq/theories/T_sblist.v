(** Property theorems about sblist: C01-C07. *)
From Verif Require Import Base M_sblist S_sblist D_sblist P_sblist.

(* a concrete reachable list used to show that hypotheses can be met *)
Definition ex_h : list (alloc * op) :=
  [(Some (fun _ => 9), Add [5; 0]); (None, Insert [3; 1] 0); (Some (fun i => i), Addi [7; 7]);
   (None, Add [1; 1]); (Some (fun i => i), Delete 1)].
Definition ex_l : sbl :=
  match sblist_init 2 2 with
  | Ret l0 => match run l0 ex_h with Ret (_, l) => l | _ => l0 end
  | _ => mkSbl 0 0 0 0 []
  end.
Example ex_reachable : reachable 2 2 ex_h ex_l [[3; 1]; [7; 7]; [1; 1]].
Proof.
  eexists; eexists. split; [reflexivity|]. split; [lia|]. split; [left; lia|].
  split; [vm_compute; reflexivity|]. split; [vm_compute; intuition discriminate|].
  split; [vm_compute; reflexivity|].
  split; [vm_compute; reflexivity|]. split.
  - intros i Hi. change (zlen _) with 3 in Hi.
    assert (i = 0 \/ i = 1 \/ i = 2) as [ -> | [ -> | -> ]] by lia;
      vm_compute; eexists; split; reflexivity.
  - intros i Hi. change (zlen _) with 3 in Hi. unfold sblist_get. change (cnt ex_l) with 3.
    now replace (i <? 3) with false by lia.
Qed.

(** C01, C02: every history behaves as on a mathematical list, without undefined
    behaviour, for every outcome of every allocation. *)
Theorem c01_sblist_refines_list :
  forall itemsize blockitems h l0,
    1 <= itemsize -> (1 <= blockitems \/ blockitems = 0 /\ itemsize <= 4096) ->
    sblist_init itemsize blockitems = Ret l0 ->
    (zlen h + bits l0) * itemsize < 2 ^ 64 ->
    caller_ok l0 h ->
    exists rs l xs, run l0 h = Ret (rs, l) /\ spec_run [] rs xs /\ reads_as l xs /\
      map fst rs = map (fun p => (mem_ok (fst p), snd p)) h.
Proof. exact history_ok. Qed.
Print Assumptions c01_sblist_refines_list.
Example c01_nonvacuous : exists l0, sblist_init 2 2 = Ret l0 /\
  (zlen ex_h + bits l0) * 2 < 2 ^ 64 /\ caller_ok l0 ex_h.
Proof. eexists. split; [reflexivity|]. split; [vm_compute; reflexivity|vm_compute; intuition discriminate]. Qed.

(** the same is false for items larger than a page with blockitems 0: the list
    never gets memory and the first add writes out of bounds *)
Theorem c01_big_items_default_block_refuted :
  exists itemsize x junk l0, sblist_init itemsize 0 = Ret l0 /\ zlen x = itemsize /\
    sblist_add (Some junk) l0 x = UB.
Proof. exists 5000, (zrepeat 0 5000), (fun _ => 0). eexists. repeat split; vm_compute; reflexivity. Qed.
Print Assumptions c01_big_items_default_block_refuted.

(** C02: when the allocator fails the very same list is left behind. *)
Theorem c02_oom_leaves_list_unchanged :
  forall itemsize blockitems h l xs x pos cmp,
    reachable itemsize blockitems h l xs -> zlen x = itemsize -> 0 <= pos <= zlen xs ->
    (sblist_add None l x = Ret (0, l) \/
     exists l', sblist_add None l x = Ret (1, l') /\ reads_as l' (xs ++ [x])) /\
    (sblist_addi None l x = Ret (SIZE_MAX, l) \/
     exists l', sblist_addi None l x = Ret (zlen xs, l') /\ reads_as l' (xs ++ [x])) /\
    (sblist_insert None l x pos = Ret (0, l) \/
     exists l', sblist_insert None l x pos = Ret (1, l') /\
       reads_as l' (ztake pos xs ++ x :: zdrop pos xs)) /\
    (sblist_insert_sorted None cmp l x = Ret (SIZE_MAX, l) \/
     exists p q l', xs = p ++ q /\ sblist_insert_sorted None cmp l x = Ret (zlen p, l') /\
       reads_as l' (p ++ x :: q)).
Proof. exact oom_reach. Qed.
Print Assumptions c02_oom_leaves_list_unchanged.
Example c02_nonvacuous : reachable 2 2 ex_h ex_l [[3; 1]; [7; 7]; [1; 1]] /\ zlen [4; 4] = 2.
Proof. split; [exact ex_reachable|reflexivity]. Qed.

(** without the size hypothesis memory safety is false: the byte count wraps *)
Theorem c02_size_wrap_refuted :
  exists itemsize blockitems x junk l0,
    1 <= itemsize /\ 1 <= blockitems < 2 ^ 64 /\ sblist_init itemsize blockitems = Ret l0 /\
    zlen x = itemsize /\ sblist_add (Some junk) l0 x = UB.
Proof.
  exists 8, (2 ^ 61), [1; 2; 3; 4; 5; 6; 7; 8], (fun _ => 0). eexists.
  split; [lia|]. split; [lia|]. split; [reflexivity|]. split; vm_compute; reflexivity.
Qed.
Print Assumptions c02_size_wrap_refuted.

(** C03 *)
Theorem c03_insert_sorted :
  forall cmp al itemsize blockitems h l xs o,
    reachable itemsize blockitems h l xs -> zlen o = itemsize ->
    exists r l', sblist_insert_sorted al cmp l o = Ret (r, l') /\
      (r = SIZE_MAX /\ l' = l /\ al = None \/
       exists p q, xs = p ++ q /\ r = zlen p /\ reads_as l' (p ++ o :: q) /\
         (total_preorder cmp -> sorted cmp xs -> sorted cmp (p ++ o :: q))).
Proof. exact insert_sorted_reach. Qed.
Print Assumptions c03_insert_sorted.

Theorem c03_insert_sorted_r :
  forall C (cmp : list Z -> list Z -> C -> Z) ctx al itemsize blockitems h l xs o,
    reachable itemsize blockitems h l xs -> zlen o = itemsize ->
    exists r l', sblist_insert_sorted_r al cmp ctx l o = Ret (r, l') /\
      (r = SIZE_MAX /\ l' = l /\ al = None \/
       exists p q, xs = p ++ q /\ r = zlen p /\ reads_as l' (p ++ o :: q) /\
         (total_preorder (fun a b => cmp a b ctx) -> sorted (fun a b => cmp a b ctx) xs ->
          sorted (fun a b => cmp a b ctx) (p ++ o :: q))).
Proof.
  exact (fun C cmp ctx al i b h l xs o HR Ho =>
    eq_ind_r (fun e => exists r l', e = Ret (r, l') /\ _)
      (insert_sorted_reach (fun a b => cmp a b ctx) al i b h l xs o HR Ho)
      (insert_sorted_r_eq al cmp ctx l o)).
Qed.
Print Assumptions c03_insert_sorted_r.

Definition ex_cmp (a b : list Z) : Z := znth 0 a 0 - znth 0 b 0.
Example c03_nonvacuous : total_preorder ex_cmp /\ exists h l,
  reachable 2 2 h l [[1; 1]; [3; 1]] /\ sorted ex_cmp [[1; 1]; [3; 1]].
Proof.
  split.
  - split; intros; unfold ex_cmp in *; lia.
  - exists [(Some (fun _ => 0), Add [1; 1]); (Some (fun _ => 0), Add [3; 1])].
    eexists. split.
    + eexists; eexists. split; [reflexivity|]. split; [lia|]. split; [left; lia|].
      split; [vm_compute; reflexivity|]. split; [vm_compute; intuition discriminate|].
      split; [vm_compute; reflexivity|].
      split; [vm_compute; reflexivity|]. split.
      * intros i Hi. change (zlen _) with 2 in Hi.
        assert (i = 0 \/ i = 1) as [ -> | -> ] by lia;
          vm_compute; eexists; split; reflexivity.
      * intros i Hi. change (zlen _) with 2 in Hi. unfold sblist_get. cbn [cnt].
        now replace (i <? 2) with false by lia.
    + intros i j Hij Hj. change (zlen _) with 2 in Hj.
      assert (i = 0 \/ i = 1) as [ -> | -> ] by lia;
      assert (j = 0 \/ j = 1) as [ -> | -> ] by lia; try lia; vm_compute; discriminate.
Qed.

(** C04: a hit is real for every comparator; a miss is real for sorted lists *)
Theorem c04_bsearch :
  forall cmp itemsize blockitems h l xs it,
    reachable itemsize blockitems h l xs ->
    exists r, sblist_bsearch cmp l it = Ret r /\
      ((0 <= r < zlen xs /\ cmp it (znth [] xs r) = 0) \/
       (r = SIZE_MAX /\
        (total_preorder cmp -> sorted cmp xs -> forall x, In x xs -> cmp it x <> 0))).
Proof. exact bsearch_reach. Qed.
Print Assumptions c04_bsearch.

Theorem c04_bsearch_r :
  forall C (cmp : list Z -> list Z -> C -> Z) ctx itemsize blockitems h l xs it,
    reachable itemsize blockitems h l xs ->
    exists r, sblist_bsearch_r cmp ctx l it = Ret r /\
      ((0 <= r < zlen xs /\ cmp it (znth [] xs r) ctx = 0) \/
       (r = SIZE_MAX /\
        (total_preorder (fun a b => cmp a b ctx) -> sorted (fun a b => cmp a b ctx) xs ->
         forall x, In x xs -> cmp it x ctx <> 0))).
Proof.
  exact (fun C cmp ctx i b h l xs it HR =>
    eq_ind_r (fun e => exists r, e = Ret r /\ _)
      (bsearch_reach (fun a b => cmp a b ctx) i b h l xs it HR)
      (bsearch_r_eq cmp ctx l it)).
Qed.
Print Assumptions c04_bsearch_r.
(* hypotheses met: see c03_nonvacuous *)

(** C05, reading half *)
Theorem c05_new_from_data_reads :
  forall itemsize data, 1 <= itemsize -> zlen data < 2 ^ 64 ->
    exists l, sblist_new_from_data itemsize data (zlen data) = Ret l /\
      reads_as l (chunks (Z.to_nat (zlen data / itemsize)) itemsize data).
Proof. exact from_data_reads. Qed.
Print Assumptions c05_new_from_data_reads.
Example c05_nonvacuous : chunks (Z.to_nat (zlen [1; 2; 3; 4; 5] / 2)) 2 [1; 2; 3; 4; 5] = [[1; 2]; [3; 4]].
Proof. reflexivity. Qed.

(** C05, growing half.  Full statement: every history works on the list as made
    by sblist_new_from_data.  Missing: it needs sblist_set_blockitems first. *)
Theorem c05_growable_after_set_blockitems_partial :
  forall itemsize data n h l,
    1 <= itemsize -> 1 <= n ->
    sblist_new_from_data itemsize data (zlen data) = Ret l ->
    (zlen data / itemsize + zlen h + n) * itemsize < 2 ^ 64 ->
    caller_ok (sblist_set_blockitems l n) h ->
    exists rs l' xs, run (sblist_set_blockitems l n) h = Ret (rs, l') /\
      spec_run (chunks (Z.to_nat (zlen data / itemsize)) itemsize data) rs xs /\
      reads_as l' xs /\
      map fst rs = map (fun p => (mem_ok (fst p), snd p)) h.
Proof. exact from_data_history. Qed.
Print Assumptions c05_growable_after_set_blockitems_partial.
Example c05_growable_nonvacuous : exists l, sblist_new_from_data 2 [1; 2; 3; 4] 4 = Ret l /\
  caller_ok (sblist_set_blockitems l 3) [(Some (fun _ => 1), Add [9; 9])].
Proof. eexists; split; [reflexivity|]. vm_compute; intuition discriminate. Qed.

(** C05 refuted as documented: without it the first successful sblist_add always
    writes past the block *)
Theorem c05_add_after_new_from_data_refuted :
  forall itemsize data x junk l,
    1 <= itemsize -> zlen data < 2 ^ 64 - 1 -> zlen x = itemsize ->
    sblist_new_from_data itemsize data (zlen data) = Ret l ->
    sblist_add (Some junk) l x = UB.
Proof. exact from_data_add_ub. Qed.
Print Assumptions c05_add_after_new_from_data_refuted.
Example c05_refuted_nonvacuous : exists l, sblist_new_from_data 2 [1; 2; 3; 4] 4 = Ret l.
Proof. eexists; reflexivity. Qed.

(** C06: what sblist_free_values really frees: addresses inside the list's own
    block *)
Theorem c06_free_values_frees_item_addresses :
  forall itemsize blockitems h l xs base,
    reachable itemsize blockitems h l xs ->
    sblist_free_values base l =
      map (fun i => base + Z.of_nat i * itemsize) (seq 0 (length xs)).
Proof. exact free_values_addrs. Qed.
Print Assumptions c06_free_values_frees_item_addresses.
Example c06_nonvacuous : reachable 2 2 ex_h ex_l [[3; 1]; [7; 7]; [1; 1]].
Proof. exact ex_reachable. Qed.

(** C06 refuted: a list holding the pointer 0x1000 whose block is at 0x2000 *)
Theorem c06_free_values_refuted :
  exists l base ptr, sblist_iter l = Ret [ptr] /\ zlen ptr = 8 /\
    sblist_free_values base l <> [le_val ptr].
Proof.
  exists (mkSbl 8 4 1 4 (0 :: 16 :: zrepeat 0 30)), 8192, [0; 16; 0; 0; 0; 0; 0; 0].
  split; [reflexivity|]. split; [reflexivity|]. vm_compute. discriminate.
Qed.
Print Assumptions c06_free_values_refuted.

(** C07 *)
Theorem c07_iteration_visits_all :
  forall itemsize blockitems h l xs,
    reachable itemsize blockitems h l xs -> sblist_iter l = Ret xs.
Proof. exact iter_reach. Qed.
Print Assumptions c07_iteration_visits_all.

Theorem c07_delete_while_iterating :
  forall S (dec : S -> item -> bool * S) s itemsize blockitems h l xs,
    reachable itemsize blockitems h l xs -> zlen xs < 2 ^ 63 ->
    exists l', sblist_iter_del dec s l = Ret (xs, l', dec_end dec s xs) /\
               reads_as l' (kept dec s xs).
Proof. exact @iter_del_reach. Qed.
Print Assumptions c07_delete_while_iterating.
Example c07_nonvacuous : reachable 2 2 ex_h ex_l [[3; 1]; [7; 7]; [1; 1]] /\
  kept (fun n x => (Z.even n, n + 1)) 0 [[3; 1]; [7; 7]; [1; 1]] = [[7; 7]].
Proof. split; [exact ex_reachable|reflexivity]. Qed.
