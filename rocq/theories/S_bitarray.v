(** Specification of bit arrays: the bits of the bytes, least significant first. *)
From Verif Require Import Base.

Fixpoint bin (n : nat) (v : Z) : list bool := match n with O => [] | S n => (v mod 2 =? 1) :: bin n (v / 2) end.
Definition bits (a : list Z) : list bool := concat (map (bin 8) a).
Definition bits_swapped (a : list Z) : list bool := concat (map (fun b => rev (bin 8 b)) a).
Definition b2c (b : bool) : Z := if b then 1 else 0.
