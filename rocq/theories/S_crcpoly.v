(** Specification for what a CRC detects: polynomials over the field with two elements. *)
From Verif Require Import Base.

(** a bit string, highest power first, as a number whose bit k is the coefficient of x^k *)
Definition poly (l : list bool) : Z := fold_left (fun a b => 2 * a + Z.b2z b) l 0.
(** the product of the polynomial with the coefficients q (highest first) and g: Horner's scheme without carries *)
Definition pmul (q : list bool) (g : Z) : Z := fold_left (fun a (b : bool) => Z.lxor (2 * a) (if b then g else 0)) q 0.
(** the bit string is a multiple of x^32 + g *)
Definition multiple (g : Z) (l : list bool) : Prop := exists q, poly l = pmul q (2 ^ 32 + g).
(** the first, the last 32 bits inverted *)
Definition flip_first (l : list bool) : list bool := map negb (firstn 32 l) ++ skipn 32 l.
Definition flip_last (l : list bool) : list bool := rev (flip_first (rev l)).
(** is the number of ones odd? *)
Definition parity (l : list bool) : bool := fold_right xorb false l.
Example pmul_ex : pmul [true; true] 3 = 5. (* (x + 1)(x + 1) = x^2 + 1 *)
Proof. reflexivity. Qed.
