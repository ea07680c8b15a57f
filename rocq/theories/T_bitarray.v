(** C63: bit arrays. *)
From Verif Require Import Base M_bitarray S_bitarray P_bitarray.

(** C63: BA_GET and BA_GET_SWAPPED read one bit *)
Theorem c63_get a i : 0 <= i < 8 * zlen a -> BA_GET a i = Ret (b2c (znth false (bits a) i)).
Proof. exact (get_ok a i). Qed.
Theorem c63_get_swapped a i : 0 <= i < 8 * zlen a -> BA_GET_SWAPPED a i = Ret (b2c (znth false (bits_swapped a) i)).
Proof. exact (swapped_ok a i). Qed.
(** C63: BA_SET replaces exactly one bit *)
Theorem c63_set a i c : 0 <= i < 8 * zlen a -> bytes a ->
  exists a', BA_SET a i c = Ret a' /\ bytes a' /\ zlen a' = zlen a /\
             bits a' = ztake i (bits a) ++ negb (c =? 0) :: zdrop (i + 1) (bits a).
Proof. exact (set_ok a i c). Qed.
(** C63: s bytes hold n bits iff s is at least BA_SIZE_REQUIRED(n) *)
Theorem c63_size n s : 0 <= n -> n <= 8 * s <-> BA_SIZE_REQUIRED n <= s.
Proof. exact (size_ok n s). Qed.
(** C63: byte literals *)
Theorem c63_bytem m b6 b5 b4 b3 b2 b1 l :
  bits [BYTEM (b2c m) (b2c b6) (b2c b5) (b2c b4) (b2c b3) (b2c b2) (b2c b1) (b2c l)] = [l; b1; b2; b3; b4; b5; b6; m].
Proof. exact (bytem_ok m b6 b5 b4 b3 b2 b1 l). Qed.
Theorem c63_bytel m b6 b5 b4 b3 b2 b1 l :
  bits [BYTEL (b2c l) (b2c b1) (b2c b2) (b2c b3) (b2c b4) (b2c b5) (b2c b6) (b2c m)] = [l; b1; b2; b3; b4; b5; b6; m].
Proof. exact (bytel_ok m b6 b5 b4 b3 b2 b1 l). Qed.
Print Assumptions c63_get.
Print Assumptions c63_get_swapped.
Print Assumptions c63_set.
Print Assumptions c63_size.
Print Assumptions c63_bytem.
Print Assumptions c63_bytel.
Example c63_ex : BA_SET [255; 0; 16] 12 7 = Ret [255; 16; 16] /\ BA_SET [255; 0; 16] 20 0 = Ret [255; 0; 0] /\
  BA_GET [255; 0; 16] 20 = Ret 1 /\ BA_GET_SWAPPED [255; 0; 16] 19 = Ret 1 /\ BA_GET_SWAPPED [255; 0; 16] 20 = Ret 0 /\
  BA_SIZE_REQUIRED 17 = 3 /\ BYTEM 1 0 0 0 0 0 1 0 = 130 /\ BYTEL 1 0 0 0 0 0 1 0 = 65.
Proof. repeat split. Qed.
