(** Model of the deep variants of the tlist frees (tlist.c 169-171, 183-185), not in M_tlist. *)
From Verif Require Import Base M_tlist.

(** tlist.c 169-171: addresses passed to free, list left behind *)
Definition tlist_free_items_deep {A} (t : tlist A) := tlist_free_items_impl t true.
(** tlist.c 173-177 with deep = 1, 183-185: all addresses passed to free *)
Definition tlist_free_deep {A} (self : Z) (t : tlist A) : out (list Z) :=
  let* (fr, _) := tlist_free_items_impl t true in Ret (fr ++ [self]).
