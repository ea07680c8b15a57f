(** Model of src/tlist/tlist.c.

    Simplifications:
    - the tree is a value; a node carries the address malloc gave it (item pointers are
      never shared between two links, so the pointer structure is a tree);
    - an item's payload (itemsize bytes behind the struct) is a value of type A;
    - malloc's outcome is an argument: None = failure, Some a = the address;
    - tlist_new's own allocation is not modelled; free(t) is address [self]. *)
From Verif Require Import Base.

Section TL.
Context {A : Type}.
(** tlist.c 14-18 *)
Inductive tree := Leaf | Node (addr prior cnt : Z) (v : A) (l r : tree).
(** sizeof(struct item): 4 + 4 + 8 + 8 *)
Definition ITEM : Z := 24.
Definition UINT_MAX : Z := 4294967295.

(** tlist.c 9-12: new seed, result *)
Definition mrand (seed : Z) : Z * Z :=
  let s := u32 ((seed + 1) * 1103515245 + 12345 - 1) in (s, Z.land (u32 (s + 1)) 2147483647).
(** tlist.c 20-22 *)
Definition cnt (t : tree) : Z := match t with Leaf => 0 | Node _ _ c _ _ _ => c end.
(** tlist.c 24-27 *)
Definition upd_cnt (t : tree) : tree :=
  match t with
  | Leaf => Leaf
  | Node a p _ v l r => Node a p (u32 (cnt l + cnt r + 1)) v l r
  end.
(** tlist.c 29-37 *)
Fixpoint merge (l : tree) : tree -> tree :=
  fix merge_r (r : tree) : tree :=
    match l, r with
    | Leaf, _ => upd_cnt r
    | _, Leaf => upd_cnt l
    | Node la lp lc lv ll lr, Node ra rp rc rv rl rr =>
        if rp <? lp then upd_cnt (Node la lp lc lv ll (merge lr r))
        else upd_cnt (Node ra rp rc rv (merge_r rl) rr)
    end.
(** tlist.c 39-50 *)
Fixpoint split (t : tree) (key add : Z) : tree * tree :=
  match t with
  | Leaf => (Leaf, Leaf)
  | Node a p c v l r =>
      let cur_key := u32 (add + cnt l) in
      if key <=? cur_key then
        let '(x, y) := split l key add in (x, upd_cnt (Node a p c v y r))
      else
        let '(x, y) := split r key (u32 (add + 1 + cnt l)) in (upd_cnt (Node a p c v l x), y)
  end.
(** tlist.c 52-60: address and payload of the item, None = NULL *)
Fixpoint getitem (t : tree) (idx add : Z) : option (Z * A) :=
  match t with
  | Leaf => None
  | Node a _ _ v l r =>
      let ls := cnt l in
      let cur_key := u32 (add + ls) in
      if cur_key =? idx then Some (a, v)
      else if cur_key <? idx then getitem r idx (u32 (add + 1 + ls))
      else getitem l idx add
  end.
(** tlist.c 62-67 *)
Definition insert (t n : tree) (idx : Z) : tree :=
  let '(t1, t2) := split t idx 0 in merge (merge t1 n) t2.
(** tlist.c 69-93; following a NULL child is UB *)
Fixpoint remove (t : tree) (idx add : Z) : out tree :=
  match t with
  | Leaf => Ret Leaf
  | Node a p c v l r =>
      let cur_key := u32 (add + cnt l) in
      let new_add := u32 (cur_key + 1) in
      let lk := match l with Leaf => UINT_MAX | Node _ _ _ _ ll _ => u32 (cnt ll + add) end in
      let rk := match r with Leaf => UINT_MAX | Node _ _ _ _ rl _ => u32 (cnt rl + new_add) end in
      if cur_key =? idx then Ret (merge l r)
      else if lk =? idx then
        match l with Leaf => UB | Node _ _ _ _ ll lr => Ret (upd_cnt (Node a p c v (merge ll lr) r)) end
      else if rk =? idx then
        match r with Leaf => UB | Node _ _ _ _ rl rr => Ret (upd_cnt (Node a p c v l (merge rl rr))) end
      else if cur_key <? idx then
        let* r := remove r idx new_add in Ret (upd_cnt (Node a p c v l r))
      else
        let* l := remove l idx add in Ret (upd_cnt (Node a p c v l r))
  end.

(** tlist.c 105-109; itemsize left out *)
Record tlist := mkTl { tseed : Z; troot : tree }.
(** tlist.c 111-118 *)
Definition tlist_new : tlist := mkTl 384 Leaf.
(** tlist.c 120-122: NULL is address 0 *)
Definition data (it : option (Z * A)) : Z := (match it with Some (a, _) => a | None => 0 end) + ITEM.
(** tlist.c 124-126 *)
Definition tlist_getsize (t : tlist) : Z := cnt (troot t).
(** tlist.c 128-130: idx becomes unsigned; the returned address, with the payload there *)
Definition tlist_get (t : tlist) (idx : Z) : Z * option A :=
  let it := getitem (troot t) (u32 idx) 0 in (data it, option_map snd it).
(** tlist.c 132-138 with new_item 95-103 *)
Definition tlist_insert (al : option Z) (t : tlist) (idx : Z) (v : A) : Z * tlist :=
  if cnt (troot t) <? idx then (0, t)
  else match al with
       | None => (0, t)
       | Some a =>
           let '(s, p) := mrand (tseed t) in
           (1, mkTl s (insert (troot t) (Node a p 1 v Leaf Leaf) (u32 idx)))
       end.
(** tlist.c 140-142 *)
Definition tlist_append (al : option Z) (t : tlist) (v : A) : Z * tlist :=
  tlist_insert al t (cnt (troot t)) v.
(** tlist.c 144-151; the addresses passed to free, in order *)
Definition tlist_delete_impl (t : tlist) (idx : Z) (deep : bool) : out (Z * list Z * tlist) :=
  if cnt (troot t) <=? idx then Ret (0, [], t)
  else
    let it := getitem (troot t) (u32 idx) 0 in
    let fr := if deep then [data it] else [] in
    let* r := remove (troot t) (u32 idx) 0 in
    Ret (1, fr ++ [match it with Some (a, _) => a | None => 0 end], mkTl (tseed t) r).
(** tlist.c 153-159 *)
Definition tlist_delete (t : tlist) (idx : Z) := tlist_delete_impl t idx false.
Definition tlist_delete_deep (t : tlist) (idx : Z) := tlist_delete_impl t idx true.
(** tlist.c 161-163 *)
Fixpoint free_items_loop (fuel : nat) (t : tlist) (deep : bool) (fr : list Z) : out (list Z * tlist) :=
  match fuel with
  | O => Fuel
  | S fuel =>
      if negb (cnt (troot t) =? 0) then
        let* (_, f, t) := tlist_delete_impl t 0 deep in free_items_loop fuel t deep (fr ++ f)
      else Ret (fr, t)
  end.
Definition tlist_free_items_impl (t : tlist) (deep : bool) : out (list Z * tlist) :=
  free_items_loop (S (Z.to_nat (cnt (troot t)))) t deep [].
(** tlist.c 165-171 *)
Definition tlist_free_items (t : tlist) := tlist_free_items_impl t false.
(** tlist.c 173-181: all addresses passed to free *)
Definition tlist_free (self : Z) (t : tlist) : out (list Z) :=
  let* (fr, _) := tlist_free_items_impl t false in Ret (fr ++ [self]).
End TL.
Arguments tree A : clear implicits.
Arguments tlist A : clear implicits.
