(** Specification of the allocator: which results are right, given the live blocks. *)
From Verif Require Import Base D_ssalloc.

(** a block address: a multiple of E inside the pool of M elements *)
Definition block (M E d : Z) : Prop := exists k, 0 <= k < M /\ d = k * E.
(** [obeys M E live ops rs live']: from the live blocks live, the results rs of ops are right
    and leave the live blocks live'.  With fails_early true, an allocation may also fail when
    blocks are free. *)
Inductive obeys (fails_early : bool) (M E : Z) : list Z -> list op -> list (option Z) -> list Z -> Prop :=
| o_nil live : obeys fails_early M E live [] [] live
| o_alloc live size d ops rs live' : size <= E -> block M E d -> ~ In d live -> obeys fails_early M E (d :: live) ops rs live' ->
    obeys fails_early M E live (Alloc size :: ops) (Some d :: rs) live'
| o_fail live size ops rs live' : E < size \/ zlen live = M \/ fails_early = true -> obeys fails_early M E live ops rs live' ->
    obeys fails_early M E live (Alloc size :: ops) (None :: rs) live'
| o_free live d ops rs live' : obeys fails_early M E (remove Z.eq_dec d live) ops rs live' ->
    obeys fails_early M E live (Free d :: ops) rs live'.
(** pointers that ssa_free can be given: not two or more elements before the pool *)
Definition ptr_ok (E : Z) (o : op) : Prop :=
  match o with Alloc _ => True | Free d => 0 <= d \/ d mod E <> 0 \/ d = - E end.
