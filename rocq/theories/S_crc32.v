(** Specification for the CRCs: a shift register of 32 bits, coefficient of x^31 first. *)
From Verif Require Import Base.

(** coefficients x^31 .. x^0 of the generator without x^32 *)
Definition gen_bits (g : Z) : list bool := map (fun k => Z.testbit g (Z.of_nat k)) (rev (seq 0 32)).
Fixpoint xor_bits (a b : list bool) : list bool :=
  match a, b with x :: a, y :: b => xorb x y :: xor_bits a b | _, _ => [] end.
(** one message bit: multiply by x, reduce by the generator *)
Definition reg_step (g : list bool) (r : list bool) (m : bool) : list bool :=
  match r with
  | [] => []
  | top :: r => if xorb top m then xor_bits (r ++ [false]) g else r ++ [false]
  end.
(** bits of a byte string in transmission order: least significant bit of each byte first *)
Definition byte_bits (b : Z) : list bool := map (fun k => Z.testbit b (Z.of_nat k)) (seq 0 8).
Definition wire_bits (l : list Z) : list bool := concat (map byte_bits l).
(** the CRC: register starts as ones, result is complemented and sent x^31 first *)
Definition crc (g : Z) (data : list Z) : list bool :=
  map negb (fold_left (reg_step (gen_bits g)) (wire_bits data) (repeat true 32)).
