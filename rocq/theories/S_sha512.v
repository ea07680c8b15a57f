(** Specification of SHA-512 after FIPS 180-4. *)
From Verif Require Import Base S_hash.

Definition add64 (x y : Z) : Z := (x + y) mod 2 ^ 64.
(** 2.2.2, 3.2 *)
Definition not64 (x : Z) : Z := 2 ^ 64 - 1 - x.
Definition rotr (n x : Z) : Z := x / 2 ^ n + (x mod 2 ^ n) * 2 ^ (64 - n).
Definition shr (n x : Z) : Z := x / 2 ^ n.
(** 4.1.3 *)
Definition sha_Ch (x y z : Z) : Z := Z.lxor (Z.land x y) (Z.land (not64 x) z).
Definition sha_Maj (x y z : Z) : Z := Z.lxor (Z.lxor (Z.land x y) (Z.land x z)) (Z.land y z).
Definition S0 (x : Z) : Z := Z.lxor (Z.lxor (rotr 28 x) (rotr 34 x)) (rotr 39 x).
Definition S1 (x : Z) : Z := Z.lxor (Z.lxor (rotr 14 x) (rotr 18 x)) (rotr 41 x).
Definition s0 (x : Z) : Z := Z.lxor (Z.lxor (rotr 1 x) (rotr 8 x)) (shr 7 x).
Definition s1 (x : Z) : Z := Z.lxor (Z.lxor (rotr 19 x) (rotr 61 x)) (shr 6 x).
(** 4.2.3: the first 64 bits of the fractional parts of the cube roots of the first 80 primes *)
Definition is_prime (n : nat) : bool := forallb (fun d => negb (Nat.eqb (Nat.modulo n d) 0)) (seq 2 (n - 2)).
Definition primes : list Z := map Z.of_nat (filter is_prime (seq 2 408)).
(** the largest r + c with c < 2^bits and (r + c)^3 <= n *)
Fixpoint cbrt (bits : nat) (n r : Z) : Z :=
  match bits with O => r | S b => let r' := r + 2 ^ Z.of_nat b in cbrt b n (if r' ^ 3 <=? n then r' else r) end.
Definition sha_K (t : Z) : Z := (cbrt 68 (znth 0 primes t * 2 ^ 192) 0) mod 2 ^ 64.
(** 5.3.5: the first 64 bits of the fractional parts of the square roots of the first 8 primes *)
Definition sha_IV : list Z := map (fun p => Z.sqrt (p * 2 ^ 128) mod 2 ^ 64) (ztake 8 primes).
(** 5.1.2 *)
Definition sha_pad (d : list Z) : list Z := d ++ [128] ++ zrepeat 0 ((111 - zlen d) mod 128) ++ be_bytes 16 (8 * zlen d).
(** 6.4.2, step 1: n more words *)
Fixpoint schedule (n : nat) (w : list Z) : list Z :=
  match n with
  | O => w
  | S n => let t := zlen w in
      schedule n (w ++ [add64 (add64 (add64 (s1 (znth 0 w (t - 2))) (znth 0 w (t - 7))) (s0 (znth 0 w (t - 15)))) (znth 0 w (t - 16))])
  end.
(** step 3 *)
Definition sha_step (W : list Z) (v : list Z) (t : Z) : list Z :=
  match v with
  | [a; b; c; d; e; f; g; h] =>
      let T1 := add64 (add64 (add64 (add64 h (S1 e)) (sha_Ch e f g)) (sha_K t)) (znth 0 W t) in
      let T2 := add64 (S0 a) (sha_Maj a b c) in
      [add64 T1 T2; a; b; c; add64 d T1; e; f; g]
  | _ => v
  end.
Definition sha_compress (h block : list Z) : list Z :=
  let W := schedule 64 (map be_val (blocks 8 16 block)) in
  map (fun p => add64 (fst p) (snd p)) (combine (fold_left (sha_step W) (map Z.of_nat (seq 0 80)) h) h).
Definition sha_blocks (l : list Z) : list Z := fold_left sha_compress (blocks 128 (Z.to_nat (zlen l / 128)) l) sha_IV.
Definition sha512 (d : list Z) : list Z := concat (map (be_bytes 8) (sha_blocks (sha_pad d))).
