(** Specification of what the deep frees of tlist release (C16). *)
From Verif Require Import Base.

(** What a deep free of the items (address, payload) gives to free: for every item in order an
    address 24 bytes into its own block and then the block.  No stored value occurs. *)
Fixpoint deep_frees {A} (xs : list (Z * A)) : list Z :=
  match xs with [] => [] | (a, _) :: xs' => a + 24 :: a :: deep_frees xs' end.
