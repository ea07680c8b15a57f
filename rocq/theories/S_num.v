(** Positional notation.  Uses nothing of any model. *)
From Verif Require Import Base.

(** value of a digit string, most significant digit first *)
Fixpoint pos_value (base : Z) (ds : list Z) : Z :=
  match ds with [] => 0 | d :: ds => d * base ^ zlen ds + pos_value base ds end.
Definition digits_ok (base : Z) (ds : list Z) : Prop := Forall (fun d => 0 <= d < base) ds.
(** ds is the shortest representation of n: no leading zero, except "0" itself *)
Definition is_repr (base n : Z) (ds : list Z) : Prop :=
  digits_ok base ds /\ pos_value base ds = n /\ (ds = [0] \/ exists d r, ds = d :: r /\ d <> 0).

(** characters of digits: 0-9, then A-Z (or a-z), then a-z *)
Definition digit_char (lower : bool) (d : Z) : Z :=
  if d <? 10 then 48 + d
  else if d <? 36 then (if lower then 97 else 65) + (d - 10)
  else 97 + (d - 36).
Definition sign_str (neg : bool) : list Z := if neg then [45] else [].
(** decimal text of an integer *)
Definition is_decimal (n : Z) (s : list Z) : Prop :=
  exists ds, is_repr 10 (Z.abs n) ds /\ s = sign_str (n <? 0) ++ map (digit_char false) ds.

(** what the flags of numberToString ask for (include/strlib.h 25-30): 4 =
    NTS_LOWERCASE_CHARS, 2 = NTS_SIGNED_TYPE (the 64 bits are two's complement) *)
Definition lower_of (base flags : Z) : bool := negb (Z.land flags 4 =? 0) && (base <=? 36).
Definition neg_of (number flags : Z) : bool := negb (Z.land flags 2 =? 0) && (2 ^ 63 <=? number).
Definition mag_of (number flags : Z) : Z := if neg_of number flags then 2 ^ 64 - number else number.
Definition b2z (b : bool) : Z := if b then 1 else 0.
