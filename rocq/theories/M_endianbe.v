(** Model of include/endianness.h on a machine of either byte order, and of its macros on arguments of
    other types than M_endian has.  Machines with other byte orders than the two are left out. *)
From Verif Require Import Base M_endian.

(** the bytes of an unsigned object of n bytes; be: the machine is big endian *)
Definition obj (be : bool) (n : nat) (x : Z) : list Z :=
  map (fun i => x / 256 ^ Z.of_nat (if be then n - 1 - i else i) mod 256) (seq 0 n).
(** the object with given bytes *)
Definition load (be : bool) (l : list Z) : Z :=
  if be then fold_left (fun a b => 256 * a + b) l 0 else fold_right (fun b a => b + 256 * a) 0 l.
(** endianness.h 50-59: w.l[0] and r.l[0] are the first four bytes of the unions *)
Definition byteswap64_on (be : bool) (x : Z) : Z :=
  let w := obj be 8 x in
  let w0 := load be (ztake 4 w) in
  let w1 := load be (zdrop 4 w) in
  let r0 := byteswap32 w1 in
  let r1 := byteswap32 w0 in
  load be (obj be 4 r0 ++ obj be 4 r1).
(** endianness.h 61-67 *)
Definition le32_on (be : bool) (x : Z) : Z := if be then byteswap32 x else x.
Definition le16_on (be : bool) (x : Z) : Z := if be then byteswap16 x else x.
(** endianness.h 45-47; x: an int.  0xff000000 is an unsigned int, the other masks are ints; a left shift
    that leaves the range of int is undefined *)
Definition byteswap32_int (x : Z) : out Z :=
  let a := Z.shiftr (Z.land (u32 x) 0xff000000) 24 in
  let b := Z.shiftr (Z.land x 0x00ff0000) 8 in
  let c := Z.shiftl (Z.land x 0x0000ff00) 8 in
  let d := Z.shiftl (Z.land x 0x000000ff) 24 in
  if (2 ^ 31 <=? c) || (2 ^ 31 <=? d) then UB else Ret (Z.lor (Z.lor (Z.lor a b) c) d).
(** le32 of an int, as an unsigned int *)
Definition le32_int (be : bool) (x : Z) : out Z := if be then byteswap32_int x else Ret (u32 x).
