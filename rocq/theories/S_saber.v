(** CipherSaber: RC4 with the key schedule run n times, and the message format.  Uses S_rc4 only. *)
From Verif Require Import Base S_rc4.

(** m steps of a pass over the key, from a state that may come from an earlier pass *)
Fixpoint pass (key : list Z) (m : nat) (st : (Z -> Z) * Z) : (Z -> Z) * Z :=
  match m with
  | O => st
  | S m =>
    let (s, j) := pass key m st in
    let i := Z.of_nat m in
    let j := (j + s i + znth 0 key (i mod zlen key)) mod 256 in
    (exch s i j, j)
  end.
(** n passes; j goes on from pass to pass *)
Definition passes (key : list Z) (n : nat) : (Z -> Z) * Z := Nat.iter n (pass key 256) (fun k => k, 0).
Definition keystream_n (key : list Z) (n : nat) (len : Z) : list Z := stream (Z.to_nat len) (fst (passes key n)) 0 0.
(** the message: ten bytes of initialisation vector, then the text encrypted with key ++ iv *)
Definition saber (n : nat) (key iv text : list Z) : list Z := iv ++ xor_bytes text (keystream_n (key ++ iv) n (zlen text)).
