(** Specification of the benchmarks: the number they compute.  Uses nothing of the model. *)
From Verif Require Import Base.

(** rnd 0 mod N + ... + rnd (n-1) mod N *)
Definition total (rnd : Z -> Z) (N : Z) (n : nat) : Z := fold_right Z.add 0 (map (fun j => rnd (Z.of_nat j) mod N) (seq 0 n)).
(** 0 .. N-1 *)
Definition upto (N : Z) : list Z := map Z.of_nat (seq 0 (Z.to_nat N)).
