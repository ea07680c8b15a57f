(** C120: include/endianness.h on machines of both byte orders. *)
From Verif Require Import Base Bits S_hash P_hash P_sha512b M_endian P_endian M_endianbe.

Lemma load_le l : load false l = le_val l.
Proof. unfold load. induction l as [|b l IH]; [reflexivity|]. cbn [fold_right le_val]. now rewrite IH. Qed.
Lemma load_be l : load true l = be_val l.
Proof.
  unfold load, be_val. rewrite <- (rev_involutive l) at 1. generalize (rev l) as r. clear l. intros r.
  rewrite <- fold_left_rev_right, rev_involutive. induction r as [|b r IH]; [reflexivity|]. cbn [fold_right le_val]. rewrite IH. lia.
Qed.
Lemma obj_le : forall n x, obj false n x = le_bytes n x.
Proof.
  unfold obj. induction n as [|n IH]; intros x; [reflexivity|]. cbn [seq map le_bytes]. change (256 ^ Z.of_nat 0) with 1. rewrite Z.div_1_r. f_equal. rewrite <- IH, <- seq_shift, map_map. apply map_ext. intros i. rewrite Z.div_div by (try lia; apply Z.pow_pos_nonneg; lia). do 2 f_equal. rewrite Nat2Z.inj_succ, Z.pow_succ_r by lia. reflexivity.
Qed.
Lemma obj_be n x : obj true n x = be_bytes n x.
Proof.
  unfold be_bytes. rewrite <- obj_le. unfold obj. apply (nth_ext _ _ 0 0); [now rewrite rev_length, !map_length|]. intros i Hi. rewrite map_length, seq_length in Hi.
  rewrite rev_nth by (rewrite map_length, seq_length; exact Hi). rewrite map_length, seq_length.
  pose (f k := x / 256 ^ Z.of_nat (n - 1 - k) mod 256). pose (g k := x / 256 ^ Z.of_nat k mod 256).
  rewrite (nth_indep _ 0 (f O)), (nth_indep _ 0 (g O)) by (rewrite map_length, seq_length; lia).
  change (fun i0 : nat => x / 256 ^ Z.of_nat (n - 1 - i0) mod 256) with f. change (fun i0 : nat => x / 256 ^ Z.of_nat i0 mod 256) with g. rewrite !map_nth, !seq_nth by lia. unfold f, g. do 4 f_equal. lia.
Qed.
Lemma le_bytes_of l : bytes l -> le_bytes (length l) (le_val l) = l.
Proof.
  induction l as [|b l IH]; intros B; [reflexivity|]. apply bytes_cons in B as [Bb B]. unfold byte in Bb. cbn [length le_val le_bytes].
  replace ((b + 256 * le_val l) mod 256) with b by (rewrite (Z.mul_comm 256), Z_mod_plus_full; symmetry; apply Z.mod_small; lia).
  replace ((b + 256 * le_val l) / 256) with (le_val l) by (rewrite (Z.mul_comm 256), Z_div_plus_full by lia; rewrite Z.div_small by lia; lia). f_equal. now apply IH.
Qed.
Lemma obj_load be l n : bytes l -> length l = n -> obj be n (load be l) = l.
Proof.
  intros B L. destruct be.
  - rewrite load_be, obj_be. unfold be_bytes, be_val. rewrite <- L, <- (rev_length l), le_bytes_of; [apply rev_involutive|]. now apply bytes_rev.
  - rewrite load_le, obj_le, <- L. now apply le_bytes_of.
Qed.
Lemma load_obj be n x : load be (obj be n x) = x mod 256 ^ Z.of_nat n.
Proof. destruct be; [rewrite load_be, obj_be; apply be_val_bytes|rewrite load_le, obj_le]. rewrite <- be_val_bytes. unfold be_val, be_bytes. now rewrite rev_involutive. Qed.
Lemma obj_rev be n x : rev (obj be n x) = obj (negb be) n x.
Proof. destruct be; cbn [negb]; rewrite obj_le, obj_be; unfold be_bytes; [apply rev_involutive|reflexivity]. Qed.
Lemma obj_len be n x : length (obj be n x) = n.
Proof. unfold obj. now rewrite map_length, seq_length. Qed.
Lemma obj_bytes be n x : bytes (obj be n x).
Proof. destruct be; [rewrite obj_be; apply be_bytes_bytes|rewrite obj_le]. rewrite <- (rev_involutive (le_bytes n x)). apply bytes_rev. apply be_bytes_bytes. Qed.
Lemma swap_load be l : bytes l -> length l = 4%nat -> byteswap32 (load be l) = load be (rev l).
Proof.
  intros B L. assert (R : 0 <= load be l < 2 ^ 32).
  { rewrite <- (obj_load be l 4 B L), load_obj. change (256 ^ Z.of_nat 4) with (2 ^ 32). apply Z.mod_pos_bound. lia. }
  rewrite swap32 by exact R. destruct be.
  - rewrite !load_be. unfold be_val at 2. rewrite rev_involutive. f_equal. rewrite <- obj_be, <- load_be. now apply obj_load.
  - rewrite (load_le l), (load_le (rev l)). f_equal. unfold be_bytes. f_equal. rewrite <- L. now apply le_bytes_of.
Qed.

(** byteswap64 reverses the bytes of its argument, wherever they are *)
Theorem c120_swap64 : forall be x, 0 <= x < 2 ^ 64 -> obj be 8 (byteswap64_on be x) = rev (obj be 8 x) /\ byteswap64_on be x = le_val (be_bytes 8 x).
Proof.
  intros be x X. assert (E : byteswap64_on be x = load be (rev (obj be 8 x))).
  { unfold byteswap64_on. cbv zeta. pose proof (obj_bytes be 8 x) as B. pose proof (obj_len be 8 x) as L. set (w := obj be 8 x) in *. clearbody w.
    destruct (zsplit 4 w) as (a & b & -> & La); [unfold zlen; lia|]. apply bytes_app in B as [Ba Bb]. rewrite app_length in L. assert (La' : length a = 4%nat) by (unfold zlen in La; lia).
    rewrite <- La, ztake_app_exact, zdrop_app_exact. rewrite !swap_load by (auto; lia). rewrite !obj_load by (rewrite ?rev_length; try lia; now apply bytes_rev). now rewrite rev_app_distr. }
  split.
  - rewrite E. apply obj_load; [apply bytes_rev, obj_bytes|now rewrite rev_length, obj_len].
  - rewrite E, obj_rev. destruct be; cbn [negb]; [rewrite load_be, obj_le; reflexivity|rewrite load_le, obj_be; reflexivity].
Qed.
Print Assumptions c120_swap64.
(** twice is the identity, and on a little-endian machine it is the function of C64 *)
Theorem c120_swap64_twice : forall be x, 0 <= x < 2 ^ 64 -> byteswap64_on be (byteswap64_on be x) = x /\ byteswap64_on be x = byteswap64 x.
Proof.
  intros be x X. destruct (c120_swap64 be x X) as [_ E]. split; [|rewrite E; symmetry; now apply swap64]. assert (R := swap_range 8 x). change (256 ^ Z.of_nat 8) with (2 ^ 64) in R. destruct (c120_swap64 be (byteswap64_on be x)) as [_ E2]; [rewrite E; exact R|]. rewrite E2, E. now apply swap_inv.
Qed.
Print Assumptions c120_swap64_twice.
(** what le32 and le16 store has its lowest byte first, on every machine *)
Theorem c120_stored : forall be x, (0 <= x < 2 ^ 32 -> obj be 4 (le32_on be x) = le_bytes 4 x) /\ (0 <= x < 2 ^ 16 -> obj be 2 (le16_on be x) = le_bytes 2 x).
Proof.
  intros [|] x; cbn [le32_on le16_on]; (split; intros X; [|]); try apply obj_le.
  - rewrite swap32 by exact X. rewrite obj_be. unfold be_bytes at 1. rewrite <- (rev_involutive (le_bytes 4 x)). f_equal. change 4%nat with (length (be_bytes 4 x)) at 1. apply le_bytes_of, be_bytes_bytes.
  - rewrite swap16 by exact X. rewrite obj_be. unfold be_bytes at 1. rewrite <- (rev_involutive (le_bytes 2 x)). f_equal. change 2%nat with (length (be_bytes 2 x)) at 1. apply le_bytes_of, be_bytes_bytes.
Qed.
Print Assumptions c120_stored.
(** and what was read from little-endian bytes is the number they stand for *)
Theorem c120_read : forall be l, bytes l -> (length l = 4%nat -> le32_on be (load be l) = le_val l) /\ (length l = 2%nat -> le16_on be (load be l) = le_val l).
Proof.
  intros [|] l B; cbn [le32_on le16_on]; (split; intros L); try apply load_le.
  - rewrite swap_load by assumption. rewrite load_be. unfold be_val. now rewrite rev_involutive.
  - assert (R : 0 <= load true l < 2 ^ 16). { rewrite <- (obj_load true l 2 B L), load_obj. change (256 ^ Z.of_nat 2) with (2 ^ 16). apply Z.mod_pos_bound. lia. }
    rewrite swap16 by exact R. rewrite <- obj_be. now rewrite obj_load.
Qed.
Print Assumptions c120_read.
Lemma field_mod x k m : 0 <= k -> k + 8 <= m -> (x mod 2 ^ m) / 2 ^ k mod 2 ^ 8 = x / 2 ^ k mod 2 ^ 8.
Proof.
  intros K M. rewrite <- !Z.shiftr_div_pow2, <- !Z.land_ones by lia. apply Z.bits_inj'. intros i Hi. rewrite !Z.land_spec, !Z.shiftr_spec, Z.land_spec by lia. destruct (Z_lt_le_dec i 8).
  - rewrite (Z.ones_spec_low m) by lia. now rewrite andb_true_r.
  - now rewrite (Z.ones_spec_high 8), !andb_false_r by lia.
Qed.
(** the macros use the lower bytes of wider arguments *)
Theorem c120_wide : forall x, byteswap16 x = byteswap16 (x mod 2 ^ 16) /\ byteswap32 x = byteswap32 (x mod 2 ^ 32).
Proof.
  intros x. unfold byteswap16, byteswap32. change 0xff with (2 ^ 0 * (2 ^ 8 - 1)). change 0xff00 with (2 ^ 8 * (2 ^ 8 - 1)). change 0xff0000 with (2 ^ 16 * (2 ^ 8 - 1)). change 0xff000000 with (2 ^ 24 * (2 ^ 8 - 1)).
  rewrite !land_field by lia. now rewrite !field_mod by lia.
Qed.
Print Assumptions c120_wide.
(** on an int the macro is defined iff the lowest byte is below 128 *)
Theorem c120_int : forall x, byteswap32_int x = if x mod 256 <? 128 then Ret (le_val (be_bytes 4 (x mod 2 ^ 32))) else UB.
Proof.
  intros x. unfold byteswap32_int. cbv zeta.
  assert (D : Z.shiftl (Z.land x 255) 24 = x mod 256 * 2 ^ 24). { rewrite Z.shiftl_mul_pow2 by lia. f_equal. change 255 with (Z.ones 8). rewrite Z.land_ones by lia. reflexivity. }
  assert (C : Z.shiftl (Z.land x 65280) 8 = x / 2 ^ 8 mod 2 ^ 8 * 2 ^ 16). { change 65280 with (2 ^ 8 * (2 ^ 8 - 1)). rewrite land_field, Z.shiftl_mul_pow2 by lia. lia. }
  pose proof (Z.mod_pos_bound x 256 ltac:(lia)). pose proof (Z.mod_pos_bound (x / 2 ^ 8) (2 ^ 8) ltac:(lia)).
  assert (V : Z.lor (Z.lor (Z.lor (Z.shiftr (Z.land (u32 x) 4278190080) 24) (Z.shiftr (Z.land x 16711680) 8)) (Z.shiftl (Z.land x 65280) 8)) (Z.shiftl (Z.land x 255) 24) = le_val (be_bytes 4 (x mod 2 ^ 32))).
  { rewrite <- swap32 by (apply Z.mod_pos_bound; lia). rewrite <- (proj2 (c120_wide x)). unfold byteswap32. rewrite D, C.
    rewrite (u32_id (_ * 2 ^ 16)), (u32_id (_ * 2 ^ 24)) by lia. do 3 f_equal. f_equal. unfold u32. change 4278190080 with (2 ^ 24 * (2 ^ 8 - 1)). rewrite !land_field by lia. f_equal. change 4294967296 with (2 ^ 32). apply field_mod; lia. }
  rewrite V. rewrite C, D. replace (2 ^ 31 <=? x / 2 ^ 8 mod 2 ^ 8 * 2 ^ 16) with false by lia. cbn [orb].
  destruct (x mod 256 <? 128) eqn:E; [replace (2 ^ 31 <=? x mod 256 * 2 ^ 24) with false by lia|replace (2 ^ 31 <=? x mod 256 * 2 ^ 24) with true by lia]; reflexivity.
Qed.
Print Assumptions c120_int.
(** so le32 of the int 128 is undefined on a big-endian machine, and 128 on a little-endian one *)
Theorem c120_le32_int_refuted : exists x, 0 <= x < 2 ^ 31 /\ le32_int true x = UB /\ le32_int false x = Ret x.
Proof. exists 128. split; [lia|]. split; vm_compute; reflexivity. Qed.
Print Assumptions c120_le32_int_refuted.
Example c120_ex : byteswap64_on true 0x1122334455667788 = 0x8877665544332211 /\ obj true 4 (le32_on true 0x12345678) = [0x78; 0x56; 0x34; 0x12] /\
  obj true 4 0x12345678 = [0x12; 0x34; 0x56; 0x78] /\ le16_on true (load true [1; 2]) = 513 /\ byteswap32_int (-129) = Ret 0x7fffffff /\ byteswap32_int (-1) = UB.
Proof. repeat split; vm_compute; reflexivity. Qed.
