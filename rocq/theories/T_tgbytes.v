(** Property C116: tglist on the bytes of its block. *)
From Verif Require Import Base M_tglist S_tglist D_tglist D_tgsort M_tgbytes D_tgbytes P_tgbytes.

(** every history of calls with items of isz bytes and valid positions stays inside the
    block and answers like a mathematical list of byte strings *)
Theorem c116_bytes : forall isz h, 1 <= isz -> (2 * zlen h + 4) * isz < 2 ^ 64 -> bcaller_ok isz b_init h ->
  exists rs b xs, brun isz b_init h = Ret (rs, b) /\ lspec_run [] rs xs /\ breads isz b xs.
Proof. exact bytes_run. Qed.
Print Assumptions c116_bytes.

(** tglist_insert_sorted, which copies the item with memcpy *)
Theorem c116_insert_sorted : forall isz h b xs al cmp o, breached isz h b xs -> zlen o = isz ->
  exists r b', b_insert_sorted isz al cmp b o = Ret (r, b') /\
    (r = SIZE_MAX /\ b' = b /\ al = None \/
     exists p q, xs = p ++ q /\ r = zlen p /\ breads isz b' (p ++ o :: q) /\ (total_order cmp -> tsorted cmp xs -> tsorted cmp (p ++ o :: q))).
Proof. exact bytes_sorted. Qed.
Print Assumptions c116_insert_sorted.

(** the byte level agrees with the slot level of M_tglist (C08, C85, C86, C94, C114): same
    answers, count and capacity, and the block holds the slots' bytes one after another *)
Theorem c116_refines : forall isz h, 1 <= isz -> (2 * zlen h + 4) * isz < 2 ^ 64 -> bcaller_ok isz b_init h ->
  exists rs b l, brun isz b_init h = Ret (rs, b) /\ trun isz tglist_init (map (fun x => (slots isz (fst x), snd x)) h) = Ret (rs, l) /\
    bcnt b = tcnt l /\ bcapa b = tcapa l /\ bmem b = concat (tmem l).
Proof. exact bytes_refine. Qed.
Print Assumptions c116_refines.

(** beyond that size the block is too small: capa * sizeof(item) wraps *)
Theorem c116_overflow_refuted : forall junk item, zlen item = 2 ^ 62 -> b_add (2 ^ 62) (Some junk) b_init item = UB.
Proof.
  intros junk item H. unfold b_add, b_grow, b_init. cbn [bcnt bcapa bmem]. change (0 =? 0) with true. cbv iota zeta. change (u64 (4 * 2 ^ 62)) with 0. change (0 - zlen []) with 0. change (1 =? 0) with false. cbn [negb]. change (u64 (0 + 1)) with 1. change (1 =? 0) with false. cbn [negb]. unfold b_set. cbn [bmem].
  rewrite zwrites_oob; [reflexivity|]. right. rewrite H. cbn. lia.
Qed.
Print Assumptions c116_overflow_refuted.

Example c116_ex :
  let a := Some (fun i => 200 + i) in
  brun 2 b_init [(a, LAdd [1; 2]); (None, LAdd [3; 4]); (None, LIns [5; 6] 1); (None, LDel 0); (None, LGet 1)] =
  Ret ([(true, LAdd [1; 2], LInt 1); (false, LAdd [3; 4], LInt 1); (false, LIns [5; 6] 1, LInt 1); (false, LDel 0, LInt 1); (false, LGet 1, LItem [3; 4])],
       mkB 2 4 [5; 6; 3; 4; 3; 4; 206; 207]) /\
  b_insert_sorted 2 None (fun x y => znth 0 x 0 - znth 0 y 0) (mkB 2 4 [1; 9; 7; 9; 0; 0; 0; 0]) [4; 8] = Ret (1, mkB 3 4 [1; 9; 4; 8; 7; 9; 0; 0]).
Proof. split; vm_compute; reflexivity. Qed.
Example c116_reached : exists h b, breached 2 h b [[1; 2]; [3; 4]].
Proof.
  exists [(Some (fun _ => 0), LAdd [1; 2]); (None, LAdd [3; 4])]. eexists. split; [lia|]. split; [reflexivity|]. split; [vm_compute; tauto|]. eexists. split; [vm_compute; reflexivity|]. split.
  - eapply LrCons; [apply LsAdd|]. eapply LrCons; [apply LsAdd|]. constructor.
  - split; [reflexivity|]. split; [|vm_compute; split; [reflexivity|discriminate]]. intros i Hi. change (zlen [[1; 2]; [3; 4]]) with 2 in Hi. assert (i = 0 \/ i = 1) as [-> | ->] by lia; reflexivity.
Qed.
