(** C64: byte order macros. *)
From Verif Require Import Base S_hash M_endian P_endian.

(** C64: byteswapN gives the number whose little-endian bytes are the big-endian bytes of x *)
Theorem c64_swap16 x : 0 <= x < 2 ^ 16 -> byteswap16 x = le_val (be_bytes 2 x).
Proof. exact (swap16 x). Qed.
Theorem c64_swap32 x : 0 <= x < 2 ^ 32 -> byteswap32 x = le_val (be_bytes 4 x).
Proof. exact (swap32 x). Qed.
Theorem c64_swap64 x : 0 <= x < 2 ^ 64 -> byteswap64 x = le_val (be_bytes 8 x).
Proof. exact (swap64 x). Qed.
(** C64: twice is the identity *)
Theorem c64_involution x :
  (0 <= x < 2 ^ 16 -> byteswap16 (byteswap16 x) = x) /\ (0 <= x < 2 ^ 32 -> byteswap32 (byteswap32 x) = x) /\
  (0 <= x < 2 ^ 64 -> byteswap64 (byteswap64 x) = x).
Proof. exact (involution x). Qed.
Print Assumptions c64_swap16.
Print Assumptions c64_swap32.
Print Assumptions c64_swap64.
Print Assumptions c64_involution.
Example c64_ex : byteswap16 0x1234 = 0x3412 /\ byteswap32 0x12345678 = 0x78563412 /\ byteswap64 0x1122334455667788 = 0x8877665544332211.
Proof. repeat split. Qed.
