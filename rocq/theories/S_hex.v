(** Hexadecimal text; uses [pos_value] of S_num only. *)
From Verif Require Import Base S_num.

Definition hex_of (bs : list Z) : list Z :=
  concat (map (fun b => [digit_char true (b / 16); digit_char true (b mod 16)]) bs).
(** c is a hexadecimal digit, of either case, with value v *)
Definition hexdigit (c v : Z) : Prop :=
  0 <= v < 16 /\ (c = digit_char true v \/ c = digit_char false v).
(** s is hexadecimal text for the digit values vs *)
Definition hextext (s vs : list Z) : Prop := Forall2 hexdigit s vs.
