(** Dotted quads.  Uses nothing of the model. *)
From Verif Require Import Base S_num.

(** decimal text of each number, separated by '.' *)
Inductive dotted : list Z -> list Z -> Prop :=
| dotted_one n s : is_decimal n s -> dotted [n] s
| dotted_more n s ns t : is_decimal n s -> dotted ns t -> dotted (n :: ns) (s ++ 46 :: t).

(** groups of decimal digits (possibly with leading zeroes) *)
Definition digit_text (s ds : list Z) : Prop := digits_ok 10 ds /\ s = map (digit_char false) ds.

Definition is_digit (c : Z) : Prop := 48 <= c <= 57.
Definition count (P : Z -> bool) (s : list Z) : Z := zlen (filter P s).
Definition digit_count (s : list Z) : Z := count (fun c => (48 <=? c) && (c <=? 57)) s.
Definition dot_count (s : list Z) : Z := count (fun c => c =? 46) s.
(** the language isnumericipv4 accepts: digits and dots only, three dots, 4 to 12 digits
    in total, no dot first and no two dots in a row *)
Definition loose_quad (s : list Z) : Prop :=
  Forall (fun c => is_digit c \/ c = 46) s /\ dot_count s = 3 /\ 4 <= digit_count s <= 12 /\
  (forall t, s <> 46 :: t) /\ (forall p q, s <> p ++ 46 :: 46 :: q).
(** what it is documented to accept: four groups of one to three digits *)
Definition strict_quad (s : list Z) : Prop :=
  exists a b c d, s = a ++ 46 :: b ++ 46 :: c ++ 46 :: d /\
    Forall (fun g => Forall is_digit g /\ 1 <= zlen g <= 3) [a; b; c; d].
