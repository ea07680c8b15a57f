(** Proofs about the byteswap macros. *)
From Verif Require Import Base Bits S_hash P_hash P_sha512b M_endian.
Ltac Zify.zify_post_hook ::= Z.div_mod_to_equations.

Lemma land_field x k n : 0 <= k -> 0 <= n -> Z.land x (2 ^ k * (2 ^ n - 1)) = x / 2 ^ k mod 2 ^ n * 2 ^ k.
Proof.
  intros K N. rewrite (Z.mul_comm (2 ^ k) (2 ^ n - 1)), <- Z.shiftl_mul_pow2 by lia. rewrite <- Z.shiftl_mul_pow2 by lia. rewrite <- Z.shiftr_div_pow2 by lia. rewrite <- land_mask by lia.
  apply Z.bits_inj'. intros i Hi. rewrite Z.land_spec. destruct (Z_lt_le_dec i k).
  - rewrite !Z.shiftl_spec_low by lia. apply andb_false_r.
  - rewrite !Z.shiftl_spec by lia. rewrite Z.land_spec, Z.shiftr_spec by lia. do 2 f_equal. lia.
Qed.
Lemma swap16 x : 0 <= x < 2 ^ 16 -> byteswap16 x = le_val (be_bytes 2 x).
Proof.
  intros X. unfold byteswap16. change 0xff with (2 ^ 8 - 1). rewrite land_mask by lia. change 0xff00 with (2 ^ 8 * (2 ^ 8 - 1)). rewrite land_field by lia.
  rewrite Z.shiftl_mul_pow2, Z.shiftr_div_pow2 by lia. rewrite Z.div_mul by lia. rewrite lor_add by lia. cbn [be_bytes le_bytes rev app le_val]. lia.
Qed.
Lemma swap32 x : 0 <= x < 2 ^ 32 -> byteswap32 x = le_val (be_bytes 4 x).
Proof.
  intros X. unfold byteswap32. change 0xff with (2 ^ 8 - 1). rewrite land_mask by lia. change 0xff00 with (2 ^ 8 * (2 ^ 8 - 1)). change 0xff0000 with (2 ^ 16 * (2 ^ 8 - 1)). change 0xff000000 with (2 ^ 24 * (2 ^ 8 - 1)).
  rewrite !land_field by lia. rewrite !Z.shiftr_div_pow2, !Z.shiftl_mul_pow2 by lia.
  cbn [be_bytes le_bytes rev app le_val]. rewrite !Z.div_div by lia. change (256 * 256) with (2 ^ 16). change (256 * 2 ^ 16) with (2 ^ 24). change 256 with (2 ^ 8).
  set (b0 := x mod 2 ^ 8). set (b1 := x / 2 ^ 8 mod 2 ^ 8). set (b2 := x / 2 ^ 16 mod 2 ^ 8). set (b3 := x / 2 ^ 24 mod 2 ^ 8).
  assert (0 <= b0 < 256 /\ 0 <= b1 < 256 /\ 0 <= b2 < 256 /\ 0 <= b3 < 256) by (unfold b0, b1, b2, b3; change (2 ^ 8) with 256; repeat split; apply Z.mod_pos_bound; lia). clearbody b0 b1 b2 b3.
  replace (b3 * 2 ^ 24 / 2 ^ 24) with b3 by lia. replace (b2 * 2 ^ 16 / 2 ^ 8) with (b2 * 2 ^ 8) by lia. replace (u32 (b1 * 2 ^ 8 * 2 ^ 8)) with (b1 * 2 ^ 16) by (rewrite u32_id; lia). rewrite u32_id by lia.
  rewrite (lor_add_r b2 8 b3) by lia. rewrite (lor_add_r b1 16) by lia. rewrite (lor_add_r b0 24) by lia. lia.
Qed.
Lemma swap64 x : 0 <= x < 2 ^ 64 -> byteswap64 x = le_val (be_bytes 8 x).
Proof.
  intros X. unfold byteswap64. cbv zeta. rewrite !swap32 by (apply u32_range || lia). change 8%nat with (4 + 4)%nat. unfold be_bytes. rewrite le_bytes_app, rev_app_distr, le_val_app.
  change (256 ^ Z.of_nat 4) with (2 ^ 32). rewrite <- (le_bytes_mod' 4 x). change (256 ^ Z.of_nat 4) with (2 ^ 32). fold (u32 x). unfold zlen. rewrite rev_length. rewrite <- (Nat2Z.id (length _)). fold (zlen (le_bytes 4 (x / 2 ^ 32))). rewrite le_bytes_len.
  rewrite Nat2Z.id. change (256 ^ Z.of_nat 4) with (2 ^ 32). change (u32 x) with (x mod 2 ^ 32). lia.
Qed.
Lemma swap_inv n x : 0 <= x < 256 ^ Z.of_nat n -> le_val (be_bytes n (le_val (be_bytes n x))) = x.
Proof.
  intros X. assert (E : forall l, bytes l -> zlen l = Z.of_nat n -> le_bytes n (le_val l) = l).
  { clear X x. induction n as [|n IH]; intros l B L; [assert (l = []) by (apply zlen_0; lia); now subst|]. destruct l as [|b l]; [revert L; zl; lia|]. apply bytes_cons in B as [Bb B]. unfold byte in Bb.
    cbn [le_val le_bytes]. replace ((b + 256 * le_val l) mod 256) with b by lia. replace ((b + 256 * le_val l) / 256) with (le_val l) by lia. f_equal. apply IH; [auto|revert L; zl; lia]. }
  unfold be_bytes at 1. rewrite E by (apply be_bytes_bytes || apply be_bytes_len). change (le_val (rev (be_bytes n x))) with (be_val (be_bytes n x)). rewrite be_val_bytes. apply Z.mod_small. exact X.
Qed.
Lemma swap_range n x : 0 <= le_val (be_bytes n x) < 256 ^ Z.of_nat n.
Proof. pose proof (le_val_range (be_bytes n x) (be_bytes_bytes n x)) as H. now rewrite be_bytes_len in H. Qed.
Lemma involution x :
  (0 <= x < 2 ^ 16 -> byteswap16 (byteswap16 x) = x) /\ (0 <= x < 2 ^ 32 -> byteswap32 (byteswap32 x) = x) /\
  (0 <= x < 2 ^ 64 -> byteswap64 (byteswap64 x) = x).
Proof.
  repeat split; intros X; [rewrite (swap16 x), swap16 by (exact X || apply (swap_range 2))|rewrite (swap32 x), swap32 by (exact X || apply (swap_range 4))|rewrite (swap64 x), swap64 by (exact X || apply (swap_range 8))]; apply swap_inv; exact X.
Qed.
