(** Histories of the stack allocator. *)
From Verif Require Import Base M_ssalloc.

Inductive op := Alloc (size : Z) | Free (ptr : Z).
(** the results of the allocations, and the pool at the end *)
Fixpoint run (M E : Z) (p : pool) (ops : list op) : out (list (option Z) * pool) :=
  match ops with
  | [] => Ret ([], p)
  | Alloc size :: ops => let* (p, r) := ssa_alloc M E p size in let* (rs, p) := run M E p ops in Ret (r :: rs, p)
  | Free ptr :: ops => let* p := ssa_free M E p ptr in run M E p ops
  end.
