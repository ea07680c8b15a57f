(** Bit-level lemmas: masks and shifts as arithmetic, finite sweeps. *)
From Verif Require Import Base.

Lemma land_disjoint_lor_add a b : Z.land a b = 0 -> Z.lor a b = a + b.
Proof. intros H. rewrite Z.add_nocarry_lxor by assumption. symmetry. now apply Z.lxor_lor. Qed.

Lemma lor_add a k b : 0 <= k -> 0 <= b < 2 ^ k -> Z.lor (a * 2 ^ k) b = a * 2 ^ k + b.
Proof.
  intros Hk Hb. apply land_disjoint_lor_add.
  apply Z.bits_inj'. intros n Hn. rewrite Z.land_spec, Z.bits_0.
  destruct (Z_lt_le_dec n k).
  - rewrite Z.mul_pow2_bits_low by lia. reflexivity.
  - assert (HB : Z.testbit b n = false).
    { destruct (Z.eq_dec b 0) as [->|]; [apply Z.bits_0|].
      apply Z.bits_above_log2; [lia|].
      apply Z.log2_lt_pow2; [lia|]. apply Z.lt_le_trans with (2 ^ k); [lia|].
      apply Z.pow_le_mono_r; lia. }
    rewrite HB. apply andb_false_r.
Qed.

Lemma lor_shiftl_add a k b : 0 <= k -> 0 <= b < 2 ^ k -> Z.lor (Z.shiftl a k) b = a * 2 ^ k + b.
Proof. intros. rewrite Z.shiftl_mul_pow2 by lia. now apply lor_add. Qed.

(** a | b with b a multiple of 2^k and a below it *)
Lemma lor_add_r a k b : 0 <= k -> 0 <= b < 2 ^ k -> Z.lor b (a * 2 ^ k) = a * 2 ^ k + b.
Proof. intros. rewrite Z.lor_comm. now apply lor_add. Qed.

Lemma land_mask x k : 0 <= k -> Z.land x (2 ^ k - 1) = x mod 2 ^ k.
Proof. intros. rewrite <- Z.land_ones by lia. now rewrite Z.ones_equiv. Qed.

Lemma land_255 x : Z.land x 255 = x mod 256. Proof. apply (land_mask x 8); lia. Qed.
Lemma land_63 x : Z.land x 63 = x mod 64. Proof. apply (land_mask x 6); lia. Qed.
Lemma land_15 x : Z.land x 15 = x mod 16. Proof. apply (land_mask x 4); lia. Qed.
Lemma land_7 x : Z.land x 7 = x mod 8. Proof. apply (land_mask x 3); lia. Qed.
Lemma land_1 x : Z.land x 1 = x mod 2. Proof. apply (land_mask x 1); lia. Qed.

(** finite sweep over 0..n-1 lifted to a universal statement *)
Definition sweep (n : nat) (f : Z -> bool) : bool := forallb (fun k => f (Z.of_nat k)) (seq 0 n).
Lemma sweep_ok n f : sweep n f = true -> forall x, 0 <= x < Z.of_nat n -> f x = true.
Proof.
  unfold sweep. rewrite forallb_forall. intros H x Hx.
  specialize (H (Z.to_nat x)). rewrite Z2Nat.id in H by lia. apply H.
  apply in_seq. lia.
Qed.

Lemma bytes_app p q : bytes (p ++ q) <-> bytes p /\ bytes q.
Proof. apply Forall_app. Qed.
Lemma bytes_cons x q : bytes (x :: q) <-> byte x /\ bytes q.
Proof. apply Forall_cons_iff. Qed.
