(** Vocabulary for the claims about tests/sha512_test.c. *)
From Verif Require Import Base M_sha512 M_spfile M_shatest.

(** the local arrays of an iteration have the sizes they are declared with; contents are free *)
Definition sane (j : locals) : Prop := zlen (jh j) = 64 /\ zlen (jx j) = 256 /\ zlen (ch (jc j)) = 64 /\ zlen (cx (jc j)) = 256.
(** a read that is willing to move a positive number of whole 128-byte blocks, or the n bytes asked for *)
Definition whole (n : Z) (r : io) : Prop := exists k, r = Xfer k /\ 0 < k /\ (k mod 128 = 0 \/ n <= k).
