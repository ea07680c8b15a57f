(** Model of tglist_insert_sorted with an item of the list itself: include/tglist.h 134-139, 151-153, 201-206 again,
    for ITEM = tglist_get(X, i), so that ptr_to_item is &items[i]. *)
From Verif Require Import Base M_tglist.

Section TG.
Context {A : Type}.
(** the item is read through the pointer: for the search while the list is unchanged, and by memcpy after the move.
    After realloc the pointer is one into a freed block; memcpy of a place onto itself overlaps (C11 7.24.2.1) *)
Definition tglist_insert_sorted_own (isz : Z) (al : talloc A) (cmp : A -> A -> Z) (l : tgl A) (i : Z) : out (Z * tgl A) :=
  let* o := tglist_get l i in
  let* idx := tglist_sorted_insert_pos_impl cmp l o in
  if idx =? SIZE_MAX then Ret (idx, l)
  else
    let moved := tcnt l =? tcapa l in
    let '(ok, l) := tglist_grow_if_needed isz al l in
    if negb (ok =? 0) then
      let* (r, l) := tglist_memmove_impl l (u64 (idx + 1)) (-1) isz in
      let l := mkTg (u64 (tcnt l + 1)) (tcapa l) (tmem l) in
      if (r =? 0) || (tcnt l =? 0) then Ret (SIZE_MAX, l)
      else if moved || (i =? idx) then UB
      else let* x := tglist_get l i in let* (_, l) := tglist_set l x idx in Ret (idx, l)
    else Ret (SIZE_MAX, l).
End TG.
