(** Model of include/bitarray.h (the macros on an array of unsigned char, CHAR_BIT = 8). *)
From Verif Require Import Base.

(** bitarray.h 19-23; Y: a non-negative index *)
Definition BA_SIZE_REQUIRED (X : Z) : Z := X / 8 + (if X mod 8 =? 0 then 0 else 1).
Definition BA_TARGET_BYTE (Y : Z) : Z := Y / 8.
Definition BA_BIT_DISTANCE (Y : Z) : Z := Y mod 8.
Definition BA_GET (X : list Z) (Y : Z) : out Z :=
  let* b := zread X (BA_TARGET_BYTE Y) in
  Ret (if Z.land b (Z.shiftl 1 (BA_BIT_DISTANCE Y)) =? 0 then 0 else 1).
Definition BA_GET_SWAPPED (X : list Z) (Y : Z) : out Z := BA_GET X ((Y / 8) * 8 + ((8 - 1) - Y mod 8)).
(** bitarray.h 25-30 *)
Definition BA_SET_TRUE (X : list Z) (Y : Z) : out (list Z) :=
  let* b := zread X (BA_TARGET_BYTE Y) in
  zwrite X (BA_TARGET_BYTE Y) (u8 (Z.lor b (Z.shiftl 1 (BA_BIT_DISTANCE Y)))).
Definition BA_SET_FALSE (X : list Z) (Y : Z) : out (list Z) :=
  let* b := zread X (BA_TARGET_BYTE Y) in
  zwrite X (BA_TARGET_BYTE Y) (u8 (Z.land b (Z.lnot (Z.shiftl 1 (BA_BIT_DISTANCE Y))))).
(** bitarray.h 31; COND: the value of the condition *)
Definition BA_SET (X : list Z) (Y COND : Z) : out (list Z) :=
  if COND =? 0 then BA_SET_FALSE X Y else BA_SET_TRUE X Y.
(** bitarray.h 16-17; the bits are ints, 0 or 1 *)
Definition BYTEM (msb b6 b5 b4 b3 b2 b1 lsb : Z) : Z :=
  u8 (Z.lor (Z.lor (Z.lor (Z.lor (Z.lor (Z.lor (Z.lor lsb (Z.shiftl b1 1)) (Z.shiftl b2 2)) (Z.shiftl b3 3)) (Z.shiftl b4 4)) (Z.shiftl b5 5)) (Z.shiftl b6 6)) (Z.shiftl msb 7)).
Definition BYTEL (lsb b1 b2 b3 b4 b5 b6 msb : Z) : Z :=
  u8 (Z.lor (Z.lor (Z.lor (Z.lor (Z.lor (Z.lor (Z.lor lsb (Z.shiftl b1 1)) (Z.shiftl b2 2)) (Z.shiftl b3 3)) (Z.shiftl b4 4)) (Z.shiftl b5 5)) (Z.shiftl b6 6)) (Z.shiftl msb 7)).
