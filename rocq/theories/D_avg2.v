(** Observation layer for the calls made by insertions and deletions. *)
From Verif Require Import Base M_tlist S_tlist D_tlist M_tlcost M_tlcost2 D_avg.

(** one more insertion at place i makes c calls *)
Definition insert_cost {A} (seed : Z) (items : list (Z * A)) (i : Z) (v : A) (w : list Z) (c : Z) : Prop :=
  exists rs t, trun (mkTl seed Leaf) (insertions items w) = Ret (rs, t) /\ tlist_getsize t = zlen items /\ tlist_insert_calls t i v = c.
(** deleting item i makes c calls *)
Definition delete_cost {A} (seed : Z) (items : list (Z * A)) (i : Z) (w : list Z) (c : Z) : Prop :=
  exists rs t, trun (mkTl seed Leaf) (insertions items w) = Ret (rs, t) /\ tlist_getsize t = zlen items /\ tlist_delete_calls t i = c.
(** the priorities down the right edge of a tree, and down its left edge *)
Fixpoint right_edge {A} (t : tree A) : list Z := match t with Leaf => [] | Node _ p _ _ _ r => p :: right_edge r end.
Fixpoint left_edge {A} (t : tree A) : list Z := match t with Leaf => [] | Node _ p _ _ l _ => p :: left_edge l end.
