(** RC4 as published, on functions from index to byte. *)
From Verif Require Import Base.

Definition exch (S : Z -> Z) (i j : Z) : Z -> Z := fun k => if k =? i then S j else if k =? j then S i else S k.
(** key scheduling: the permutation and j after n rounds *)
Fixpoint ksa (key : list Z) (n : nat) : (Z -> Z) * Z :=
  match n with
  | O => (fun k => k, 0)
  | S m =>
    let (s, j) := ksa key m in
    let i := Z.of_nat m in
    let j := (j + s i + znth 0 key (i mod zlen key)) mod 256 in
    (exch s i j, j)
  end.
(** n key stream bytes from the state s, i, j *)
Fixpoint stream (n : nat) (s : Z -> Z) (i j : Z) : list Z :=
  match n with
  | O => []
  | S m =>
    let i := (i + 1) mod 256 in
    let j := (j + s i) mod 256 in
    let s := exch s i j in
    s ((s i + s j) mod 256) :: stream m s i j
  end.
Definition keystream (key : list Z) (n : Z) : list Z := stream (Z.to_nat n) (fst (ksa key 256)) 0 0.
Definition xor_bytes (a b : list Z) : list Z := map (fun '(x, y) => Z.lxor x y) (combine a b).
