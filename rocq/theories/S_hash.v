(** Specification helpers shared by the hash functions. *)
From Verif Require Import Base.

(** n pieces of k elements *)
Fixpoint blocks {A} (k : Z) (n : nat) (l : list A) : list (list A) :=
  match n with O => [] | S n => ztake k l :: blocks k n (zdrop k l) end.
(** little endian *)
Fixpoint le_val (l : list Z) : Z := match l with [] => 0 | b :: l => b + 256 * le_val l end.
Fixpoint le_bytes (n : nat) (v : Z) : list Z := match n with O => [] | S n => v mod 256 :: le_bytes n (v / 256) end.
(** big endian *)
Definition be_val (l : list Z) : Z := le_val (rev l).
Definition be_bytes (n : nat) (v : Z) : list Z := rev (le_bytes n v).
