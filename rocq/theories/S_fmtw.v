(** Spec (C57): what ulz_vsnprintf takes a precision of several digits for. *)
From Verif Require Import Base.

(** the sum a precision of several digits stands for: the first digit, and every other one times ten times its place from the end *)
Fixpoint places (ds : list Z) : Z := match ds with [] => 0 | d :: r => 10 * zlen r * d + places r end.
Definition ulz_precision (ds : list Z) : Z := match ds with [] => 0 | d :: r => d + places r end.
