(** Which block ssa_alloc hands out, from the live blocks alone. *)
From Verif Require Import Base D_ssalloc.

(** the block behind the highest live one; if that is the last of the pool, the lowest free one
    among the first 8 * (M / 8) *)
Inductive answer (M E : Z) (live : list Z) (size : Z) : option Z -> Prop :=
| a_big : E < size -> answer M E live size None
| a_top k : size <= E -> 0 <= k < M -> (forall d, In d live -> d < k * E) -> (k = 0 \/ In ((k - 1) * E) live) -> answer M E live size (Some (k * E))
| a_hole j : size <= E -> In ((M - 1) * E) live -> 0 <= j < 8 * (M / 8) -> ~ In (j * E) live -> (forall i, 0 <= i < j -> In (i * E) live) -> answer M E live size (Some (j * E))
| a_none : size <= E -> In ((M - 1) * E) live -> (forall i, 0 <= i < 8 * (M / 8) -> In (i * E) live) -> answer M E live size None.
Definition with_block (live : list Z) (r : option Z) : list Z := match r with Some d => d :: live | None => live end.
Inductive answers (M E : Z) : list Z -> list op -> list (option Z) -> list Z -> Prop :=
| s_nil live : answers M E live [] [] live
| s_alloc live size r ops rs live' : answer M E live size r -> answers M E (with_block live r) ops rs live' -> answers M E live (Alloc size :: ops) (r :: rs) live'
| s_free live d ops rs live' : answers M E (remove Z.eq_dec d live) ops rs live' -> answers M E live (Free d :: ops) rs live'.
