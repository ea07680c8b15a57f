(** Model of include/endianness.h on a little-endian machine. *)
From Verif Require Import Base.

(** endianness.h 43; x: uint16_t, promoted to int *)
Definition byteswap16 (x : Z) : Z := Z.lor (Z.shiftl (Z.land x 0x00ff) 8) (Z.shiftr (Z.land x 0xff00) 8).
(** endianness.h 45-47; x: uint32_t *)
Definition byteswap32 (x : Z) : Z :=
  Z.lor (Z.lor (Z.lor (Z.shiftr (Z.land x 0xff000000) 24) (Z.shiftr (Z.land x 0x00ff0000) 8))
               (u32 (Z.shiftl (Z.land x 0x0000ff00) 8))) (u32 (Z.shiftl (Z.land x 0x000000ff) 24)).
(** endianness.h 50-59: the halves of the union, low half first *)
Definition byteswap64 (x : Z) : Z :=
  let w0 := u32 x in let w1 := x / 2 ^ 32 in
  let r0 := byteswap32 w1 in let r1 := byteswap32 w0 in
  r0 + r1 * 2 ^ 32.
(** endianness.h 61-64 *)
Definition le32 (x : Z) : Z := x.
Definition le16 (x : Z) : Z := x.
