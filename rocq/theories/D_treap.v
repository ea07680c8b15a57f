(** Observation layer for the shape of a tlist's tree. *)
From Verif Require Import Base M_tlist S_tlist D_tlist S_treap.

(** the items in order: address, priority, payload *)
Fixpoint inorder {A} (t : tree A) : list (Z * (Z * A)) :=
  match t with Leaf => [] | Node a p _ v l r => inorder l ++ (a, (p, v)) :: inorder r end.
Definition prio {A} (x : Z * (Z * A)) : Z := fst (snd x).
Fixpoint erase {A} (t : tree A) : btree (Z * (Z * A)) :=
  match t with Leaf => BE | Node a p _ v l r => BN (erase l) (a, (p, v)) (erase r) end.
(** the list the history h leads to *)
Definition reach {A} (seed : Z) (h : list (top A)) (t : tlist A) : Prop :=
  tcaller_ok (mkTl seed Leaf) h /\ exists rs, trun (mkTl seed Leaf) h = Ret (rs, t).
