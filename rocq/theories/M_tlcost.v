(** Model of src/tlist/tlist.c, getitem, with the number of nodes it looks at. *)
From Verif Require Import Base M_tlist.

(** tlist.c 52-60 *)
Fixpoint getitem_cost {A} (t : tree A) (idx add : Z) : option (Z * A) * Z :=
  match t with
  | Leaf => (None, 0)
  | Node a _ _ v l r =>
      let ls := cnt l in
      let cur_key := u32 (add + ls) in
      if cur_key =? idx then (Some (a, v), 1)
      else let '(x, n) := if cur_key <? idx then getitem_cost r idx (u32 (add + 1 + ls)) else getitem_cost l idx add in (x, n + 1)
  end.
(** tlist.c 128-130 *)
Definition tlist_get_cost {A} (t : tlist A) (idx : Z) : (Z * option A) * Z :=
  let '(it, n) := getitem_cost (troot t) (u32 idx) 0 in ((data it, option_map snd it), n).
