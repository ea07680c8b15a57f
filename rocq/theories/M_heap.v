(** The C heap as seen by code that only allocates and frees: which blocks are allocated.

    An address is a positive number and is given out once, so that freeing a block twice, or freeing
    something malloc did not return, is always noticed (UB).  realloc always moves the block.  Whether a
    request succeeds is decided by a script of answers; when it is used up every request succeeds. *)
From Verif Require Import Base.

Record heap := mkHeap { live : list Z; nxt : Z; script : list bool }.
Definition NULL := 0.
(** malloc, calloc, strdup's allocation *)
Definition halloc (h : heap) : Z * heap :=
  match script h with
  | false :: s => (NULL, mkHeap (live h) (nxt h) s)
  | s => (nxt h, mkHeap (nxt h :: live h) (nxt h + 1) (tl s))
  end.
Fixpoint drop (p : Z) (l : list Z) : list Z :=
  match l with [] => [] | q :: l => if q =? p then l else q :: drop p l end.
(** free *)
Definition hfree (h : heap) (p : Z) : out heap :=
  if p =? NULL then Ret h
  else if existsb (Z.eqb p) (live h) then Ret (mkHeap (drop p (live h)) (nxt h) (script h))
  else UB.
(** realloc with a size that is not 0 *)
Definition hrealloc (h : heap) (p : Z) : out (Z * heap) :=
  if p =? NULL then Ret (halloc h)
  else if existsb (Z.eqb p) (live h) then
    let (q, h) := halloc h in
    if q =? NULL then Ret (NULL, h) else let* h := hfree h p in Ret (q, h)
  else UB.
