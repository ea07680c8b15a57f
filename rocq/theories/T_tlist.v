(** Property theorems about tlist: C14, C15, C16. *)
From Verif Require Import Base M_tlist S_tlist D_tlist P_tlist.

(** C14: every history, every seed of the priority generator, every outcome of every
    allocation.  Items are (address, payload), so the theorem also says that an item never
    moves while it is in the list, and that a deletion frees exactly its own item. *)
Theorem c14_tlist_refines_list :
  forall A seed (h : list (top A)), tcaller_ok (mkTl seed Leaf) h ->
    exists rs t xs, trun (mkTl seed Leaf) h = Ret (rs, t) /\ tspec_run [] rs xs /\ treads t xs /\ map fst rs = h.
Proof. exact @history. Qed.
Print Assumptions c14_tlist_refines_list.
(** tlist_free releases each live item once, in order, then the list *)
Theorem c14_tlist_free_releases_all :
  forall A seed (h : list (top A)) rs t self, tcaller_ok (mkTl seed Leaf) h -> trun (mkTl seed Leaf) h = Ret (rs, t) ->
    exists xs, tspec_run [] rs xs /\ tlist_free self t = Ret (map fst xs ++ [self]).
Proof. exact @free_hist. Qed.
Print Assumptions c14_tlist_free_releases_all.
Definition ex_tl : list (top Z) :=
  [TApp (Some 100) 7; TIns (Some 200) 0 8; TIns (Some 300) 5 1; TApp None 2; TIns (Some 400) 1 9; TApp (Some 500) 6; TGet 1; TDel 2; TDel 3;
   TSize; TGet 2].
Example c14_example : tcaller_ok tlist_new ex_tl /\
  match trun tlist_new ex_tl with
  | Ret (rs, _) => map snd rs = [TInt 1 []; TInt 1 []; TInt 0 []; TInt 0 []; TInt 1 []; TInt 1 []; TItem 400 9; TInt 1 [100]; TInt 0 [];
                                 TInt 3 []; TItem 500 6]
  | _ => False
  end.
Proof. split; [cbv; intuition discriminate|vm_compute; reflexivity]. Qed.

(** C15: exact subtree counts and heap order in every reachable list *)
Theorem c15_tlist_is_treap :
  forall A seed (h : list (top A)) rs t, tcaller_ok (mkTl seed Leaf) h -> trun (mkTl seed Leaf) h = Ret (rs, t) ->
    counts_exact (troot t) /\ heap_ordered (troot t).
Proof. exact @shape. Qed.
Print Assumptions c15_tlist_is_treap.
Example c15_example :
  match trun tlist_new (firstn 6 ex_tl) with
  | Ret (_, t) => match troot t with Node a p c _ l r => (a, c, nodes l, nodes r) = (100, 4, 2, 1) | Leaf => False end
  | _ => False
  end.
Proof. vm_compute. reflexivity. Qed.

(** C16, what holds: a wrong index below 2^32 gives the address sizeof(struct item) = 24,
    which no item has if malloc returns non-NULL addresses *)
Theorem c16_get_out_of_range_partial :
  forall A seed (h : list (top A)) rs t idx, tcaller_ok (mkTl seed Leaf) h -> trun (mkTl seed Leaf) h = Ret (rs, t) ->
    tlist_getsize t <= idx < 2 ^ 32 -> tlist_get t idx = (24, None).
Proof. exact @get_oob. Qed.
Print Assumptions c16_get_out_of_range_partial.
(** tlist_get is not NULL out of range, and from 2^32 on it wraps to a wrong item *)
Theorem c16_get_out_of_range_refuted :
  exists (h : list (top Z)) rs t, tcaller_ok tlist_new h /\ trun tlist_new h = Ret (rs, t) /\ tlist_getsize t = 1 /\
    fst (tlist_get t 1) <> 0 /\ tlist_get t (2 ^ 32) = tlist_get t 0 /\ snd (tlist_get t (2 ^ 32)) = Some 7.
Proof.
  exists [TApp (Some 100) 7]. eexists _, _. split; [cbv; auto|]. split; [vm_compute; reflexivity|].
  repeat split; vm_compute; congruence.
Qed.
Print Assumptions c16_get_out_of_range_refuted.
(** tlist_delete_deep removes the right item but, whatever the stored value, gives free the
    address 24 bytes into the item's own block, then the block *)
Theorem c16_delete_deep_frees_interior_refuted :
  forall A seed (h : list (top A)) rs t p a v q, tcaller_ok (mkTl seed Leaf) h -> trun (mkTl seed Leaf) h = Ret (rs, t) ->
    tspec_run [] rs (p ++ (a, v) :: q) -> treads t (p ++ (a, v) :: q) ->
    exists t', tlist_delete_deep t (zlen p) = Ret (1, [a + 24; a], t') /\ treads t' (p ++ q).
Proof. exact @deep_hist. Qed.
Print Assumptions c16_delete_deep_frees_interior_refuted.
Example c16_deep_example :
  match trun tlist_new [TApp (Some 100) 7; TApp (Some 200) 8] with
  | Ret (_, t) => match tlist_delete_deep t 1 with Ret (1, fr, _) => fr = [224; 200] | _ => False end
  | _ => False
  end.
Proof. vm_compute. reflexivity. Qed.
