(** Specification for the shape of a treap.  Uses nothing of the model. *)
From Verif Require Import Base.

Inductive btree (B : Type) := BE | BN (l : btree B) (x : B) (r : btree B).
Arguments BE {B}.
Arguments BN {B} l x r.
(** the Cartesian tree of a sequence: the greatest key is the root, what is left and right of it in the
    sequence makes the subtrees *)
Inductive cartesian {B} (key : B -> Z) : list B -> btree B -> Prop :=
| CtE : cartesian key [] BE
| CtN p x q l r : Forall (fun y => key y <= key x) (p ++ q) -> cartesian key p l -> cartesian key q r -> cartesian key (p ++ x :: q) (BN l x r).
(** how often a new maximum appears in the sequence, m being the first *)
Fixpoint records (m : Z) (ks : list Z) : Z :=
  match ks with
  | [] => 0
  | k :: ks => if m <? k then 1 + records k ks else records m ks
  end.
