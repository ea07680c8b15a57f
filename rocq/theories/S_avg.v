(** Specification for averages over all orders of some priorities.  Uses nothing of the model. *)
From Coq Require Import Permutation.
From Verif Require Import Base.

(** ls holds every order of ks, each once *)
Definition all_orders (ks : list Z) (ls : list (list Z)) : Prop := NoDup ls /\ forall l, In l ls <-> Permutation ks l.
Definition zsum (l : list Z) : Z := fold_right Z.add 0 l.
(** n/1 + n/2 + ... + n/m *)
Fixpoint harmonic (n : Z) (m : nat) : Z := match m with O => 0 | S m => harmonic n m + n / Z.of_nat (S m) end.

(** ws holds every way to put n items into an empty list one after another, each once: the item put in
    after k others goes to one of the k + 1 places 0, ..., k *)
Definition way (n : Z) (w : list Z) : Prop := zlen w = n /\ forall k, 0 <= k < n -> 0 <= znth 0 w k <= k.
Definition all_ways (n : Z) (ws : list (list Z)) : Prop := NoDup ws /\ forall w, In w ws <-> way n w.
(** how many of s are greater than b, and how many at least b *)
Definition above (b : Z) (s : list Z) : Z := Z.of_nat (length (filter (fun k => b <? k) s)).
Definition at_least (b : Z) (s : list Z) : Z := Z.of_nat (length (filter (fun k => b <=? k) s)).
