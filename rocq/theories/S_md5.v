(** Specification of MD5 after RFC 1321. *)
From Verif Require Import Base S_hash.

Definition word4 : Type := Z * Z * Z * Z.
Definition add32 (x y : Z) : Z := (x + y) mod 2 ^ 32.
Definition not32 (x : Z) : Z := 2 ^ 32 - 1 - x.
(** RFC 1321, 3.4 *)
Definition md5_F (x y z : Z) : Z := Z.lor (Z.land x y) (Z.land (not32 x) z).
Definition md5_G (x y z : Z) : Z := Z.lor (Z.land x z) (Z.land y (not32 z)).
Definition md5_H (x y z : Z) : Z := Z.lxor (Z.lxor x y) z.
Definition md5_I (x y z : Z) : Z := Z.lxor y (Z.lor x (not32 z)).
Definition rotl (x s : Z) : Z := (x * 2 ^ s) mod 2 ^ 32 + x / 2 ^ (32 - s).
(** T[i+1]: integer part of 2^32 * |sin(i+1)|, by the Taylor series with 160 fractional bits *)
Fixpoint sin_sum (n : nat) (k t x : Z) : Z :=
  match n with O => 0 | S n => t + sin_sum n (k + 2) (- (t * x * x) / (k * (k + 1))) x end.
Definition md5_T (i : Z) : Z := Z.abs (sin_sum 110 2 ((i + 1) * 2 ^ 160) (i + 1)) / 2 ^ 128.
Definition md5_fn (i : Z) : Z -> Z -> Z -> Z :=
  if i <? 16 then md5_F else if i <? 32 then md5_G else if i <? 48 then md5_H else md5_I.
Definition md5_k (i : Z) : Z :=
  if i <? 16 then i else if i <? 32 then (5 * i + 1) mod 16 else if i <? 48 then (3 * i + 5) mod 16 else (7 * i) mod 16.
Definition md5_s (i : Z) : Z :=
  znth 0 (znth [] [[7; 12; 17; 22]; [5; 9; 14; 20]; [4; 11; 16; 23]; [6; 10; 15; 21]] (i / 16)) (i mod 4).
(** [abcd k s i]: a = b + ((a + f(b,c,d) + X[k] + T[i]) <<< s), then the roles rotate *)
Definition md5_op (f : Z -> Z -> Z -> Z) (xk t s : Z) (v : word4) : word4 :=
  let '(a, b, c, d) := v in (d, add32 b (rotl (add32 (add32 (add32 a (f b c d)) xk) t) s), b, c).
Definition md5_step (x : list Z) (v : word4) (i : Z) : word4 := md5_op (md5_fn i) (znth 0 x (md5_k i)) (md5_T i) (md5_s i) v.
Definition md5_compress (h : word4) (block : list Z) : word4 :=
  let x := map le_val (blocks 4 16 block) in
  let '(a, b, c, d) := h in
  let '(a', b', c', d') := fold_left (md5_step x) (map Z.of_nat (seq 0 64)) h in
  (add32 a a', add32 b b', add32 c c', add32 d d').
Definition md5_init_words : word4 := (0x67452301, 0xefcdab89, 0x98badcfe, 0x10325476).
(** 3.1, 3.2: a 1 bit, zero bits up to 448 mod 512, the length in bits mod 2^64 *)
Definition md5_pad (d : list Z) : list Z := d ++ [128] ++ zrepeat 0 ((55 - zlen d) mod 64) ++ le_bytes 8 (8 * zlen d).
Definition md5_blocks (l : list Z) (h : word4) : word4 := fold_left md5_compress (blocks 64 (Z.to_nat (zlen l / 64)) l) h.
Definition md5 (d : list Z) : list Z :=
  let '(a, b, c, e) := md5_blocks (md5_pad d) md5_init_words in le_bytes 4 a ++ le_bytes 4 b ++ le_bytes 4 c ++ le_bytes 4 e.
