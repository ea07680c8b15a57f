(** Specification of the names mkdtemp tries (C71). *)
From Verif Require Import Base S_num.

(** k characters out of 0-9, A-Z, a-z (in this order), chosen by the numbers n, n+1, ... of a random sequence *)
Fixpoint draws (rand : Z -> Z) (k : nat) (n : Z) : list Z :=
  match k with O => [] | S k => digit_char false (rand n mod 62) :: draws rand k (n + 1) end.
(** k names in succession: the prefix p and six fresh characters each *)
Fixpoint tries (rand : Z -> Z) (p : list Z) (k : nat) (n : Z) : list (list Z) :=
  match k with O => [] | S k => (p ++ draws rand 6 n) :: tries rand p k (n + 6) end.
(** "/dev/shm/", "/tmp/" *)
Definition shm_dir : list Z := [47; 100; 101; 118; 47; 115; 104; 109; 47].
Definition tmp_dir : list Z := [47; 116; 109; 112; 47].
