(** Model of src/tlist/tlist.c, split, merge, insert and remove, counting the calls they make (the first one
    included). *)
From Verif Require Import Base M_tlist M_tlcost.

Section C.
Context {A : Type}.
(** tlist.c 29-37 *)
Fixpoint merge_calls (l : tree A) : tree A -> Z :=
  fix merge_r (r : tree A) : Z :=
    match l, r with
    | Leaf, _ => 1
    | _, Leaf => 1
    | Node _ lp _ _ _ lr, Node _ rp _ _ rl _ => if rp <? lp then 1 + merge_calls lr r else 1 + merge_r rl
    end.
(** tlist.c 39-50 *)
Fixpoint split_calls (t : tree A) (key add : Z) : Z :=
  match t with
  | Leaf => 1
  | Node _ _ _ _ l r => if key <=? u32 (add + cnt l) then 1 + split_calls l key add else 1 + split_calls r key (u32 (add + 1 + cnt l))
  end.
(** tlist.c 62-67: those of split and merge *)
Definition insert_calls (t n : tree A) (idx : Z) : Z :=
  let '(t1, t2) := split t idx 0 in split_calls t idx 0 + merge_calls t1 n + merge_calls (merge t1 n) t2.
(** tlist.c 69-93: those of remove and merge *)
Fixpoint remove_calls (t : tree A) (idx add : Z) : Z :=
  match t with
  | Leaf => 1
  | Node _ _ _ _ l r =>
      let cur_key := u32 (add + cnt l) in
      let new_add := u32 (cur_key + 1) in
      let lk := match l with Leaf => UINT_MAX | Node _ _ _ _ ll _ => u32 (cnt ll + add) end in
      let rk := match r with Leaf => UINT_MAX | Node _ _ _ _ rl _ => u32 (cnt rl + new_add) end in
      if cur_key =? idx then 1 + merge_calls l r
      else if lk =? idx then match l with Leaf => 1 | Node _ _ _ _ ll lr => 1 + merge_calls ll lr end
      else if rk =? idx then match r with Leaf => 1 | Node _ _ _ _ rl rr => 1 + merge_calls rl rr end
      else if cur_key <? idx then 1 + remove_calls r idx new_add
      else 1 + remove_calls l idx add
  end.
(** tlist.c 132-138, the allocation answering with a block: those of split and merge *)
Definition tlist_insert_calls (t : tlist A) (idx : Z) (v : A) : Z :=
  if cnt (troot t) <? idx then 0
  else let '(_, p) := mrand (tseed t) in insert_calls (troot t) (Node 0 p 1 v Leaf Leaf) (u32 idx).
(** tlist.c 144-151: those of getitem, remove and merge *)
Definition tlist_delete_calls (t : tlist A) (idx : Z) : Z :=
  if cnt (troot t) <=? idx then 0
  else snd (getitem_cost (troot t) (u32 idx) 0) + remove_calls (troot t) (u32 idx) 0.
End C.
