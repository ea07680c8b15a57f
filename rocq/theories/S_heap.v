(** What a program owns: a heap made of its blocks [own] and of the blocks [base] of everybody else. *)
From Verif Require Import Base M_heap.
From Coq Require Import Permutation.

Definition sane (h : heap) : Prop := NoDup (live h) /\ Forall (fun p => 0 < p < nxt h) (live h) /\ 0 < nxt h.
Definition owns (h : heap) (base own : list Z) : Prop := sane h /\ Permutation (live h) (own ++ base).
(** nothing was leaked and nothing was freed that was there before *)
Definition balanced (h h' : heap) : Prop := sane h' /\ Permutation (live h') (live h).
