(** Proofs about what the CRCs detect. *)
From Verif Require Import Base Bits M_crc32 S_crc32 D_crc32 S_crcpoly P_rc4 P_crc32.
Transparent step steps.

(** ---------- the register as a number, fed with any bits ---------- *)
Definition feed1 (rp s : Z) (m : bool) : Z := step rp (Z.lxor s (Z.b2z m)).
Lemma b2z_u32 m : 0 <= Z.b2z m < 2 ^ 32.
Proof. destruct m; cbn; lia. Qed.
Lemma lxor_inj a b c : Z.lxor a c = Z.lxor b c -> a = b.
Proof. intros E. rewrite <- (Z.lxor_0_r a), <- (Z.lxor_0_r b), <- (Z.lxor_nilpotent c), <- !Z.lxor_assoc. now rewrite E. Qed.
(** a bit string, lowest power first *)
Fixpoint val (w : list bool) : Z := match w with [] => 0 | b :: w => Z.b2z b + 2 * val w end.
Lemma val_range : forall w, 0 <= val w < 2 ^ Z.of_nat (length w).
Proof. induction w as [|b w IH]; [cbn; lia|]. cbn [val length]. rewrite Nat2Z.inj_succ, Z.pow_succ_r by lia. destruct b; cbn [Z.b2z]; lia. Qed.
Lemma val_inj : forall a b, length a = length b -> val a = val b -> a = b.
Proof.
  induction a as [|x a IH]; intros [|y b] L E; try discriminate; [reflexivity|]. cbn [val length] in *. injection L as L.
  assert (x = y) by (destruct x, y; cbn [Z.b2z] in E; auto; lia). subst y. f_equal. apply IH; auto. lia.
Qed.
Lemma bitsn_val : forall w, bitsn (length w) (val w) = w.
Proof.
  induction w as [|b w IH]; [reflexivity|]. cbn [length]. rewrite bitsn_S. cbn [val]. f_equal.
  - destruct b; cbn [Z.b2z]; [rewrite Z.odd_add_mul_2; reflexivity|rewrite Z.add_0_l, Z.odd_mul; reflexivity].
  - replace (Z.shiftr (Z.b2z b + 2 * val w) 1) with (val w); [exact IH|]. rewrite Z.shiftr_div_pow2 by lia. change (2 ^ 1) with 2.
    apply Z.div_unique with (r := Z.b2z b); destruct b; cbn [Z.b2z]; lia.
Qed.
Lemma bitsn_inj : forall n a b, 0 <= a < 2 ^ Z.of_nat n -> 0 <= b < 2 ^ Z.of_nat n -> bitsn n a = bitsn n b -> a = b.
Proof.
  induction n as [|n IH]; intros a b A B E; [cbn in A, B; lia|]. rewrite !bitsn_S in E. injection E as E1 E2. rewrite Nat2Z.inj_succ, Z.pow_succ_r in A, B by lia.
  assert (R : forall x, 0 <= x < 2 * 2 ^ Z.of_nat n -> 0 <= Z.shiftr x 1 < 2 ^ Z.of_nat n).
  { intros x X. rewrite Z.shiftr_div_pow2 by lia. change (2 ^ 1) with 2. split; [apply Z.div_pos; lia|apply Z.div_lt_upper_bound; lia]. }
  apply IH in E2; auto. rewrite (split1 a), (split1 b). now rewrite E1, E2.
Qed.
Section Num.
Variables (g rp : Z).
Hypothesis G : gen_bits g = bitsn 32 rp.
Hypothesis RPr : 0 <= rp < 2 ^ 32.
Hypothesis Top : Z.testbit rp 31 = true.
Lemma feed1_u32 s m : 0 <= s < 2 ^ 32 -> 0 <= feed1 rp s m < 2 ^ 32.
Proof using RPr. intros H. apply step_u32; [auto|]. apply lxor_u32; [auto|apply b2z_u32]. Qed.
Lemma run_num : forall w s, 0 <= s < 2 ^ 32 ->
  fold_left (reg_step (gen_bits g)) w (bitsn 32 s) = bitsn 32 (fold_left (feed1 rp) w s) /\ 0 <= fold_left (feed1 rp) w s < 2 ^ 32.
Proof using G RPr.
  induction w as [|m w IH]; intros s H; [split; [reflexivity|exact H]|]. rewrite !fold_cons. rewrite (reg_step_ok g rp) by auto. apply IH. now apply feed1_u32.
Qed.
Lemma step_inj a b : 0 <= a < 2 ^ 32 -> 0 <= b < 2 ^ 32 -> step rp a = step rp b -> a = b.
Proof using RPr Top.
  intros A B E.
  assert (O : forall x, 0 <= x < 2 ^ 32 -> Z.testbit (step rp x) 31 = Z.odd x).
  { intros x X. unfold step. rewrite Z.lxor_spec, Z.shiftr_spec by lia. rewrite testbit_small by (auto; lia). destruct (Z.odd x); [now rewrite Top|now rewrite Z.bits_0]. }
  assert (P : Z.odd a = Z.odd b) by (rewrite <- (O a A), <- (O b B); now rewrite E).
  unfold step in E. rewrite P in E. assert (E2 : Z.shiftr a 1 = Z.shiftr b 1).
  { rewrite <- (Z.lxor_0_r (Z.shiftr a 1)), <- (Z.lxor_0_r (Z.shiftr b 1)). rewrite <- (Z.lxor_nilpotent (if Z.odd b then rp else 0)). rewrite <- !Z.lxor_assoc. now rewrite E. }
  rewrite (split1 a), (split1 b). now rewrite P, E2.
Qed.
Lemma feed1_inj a b m : 0 <= a < 2 ^ 32 -> 0 <= b < 2 ^ 32 -> feed1 rp a m = feed1 rp b m -> a = b.
Proof using RPr Top. intros A B E. apply (lxor_inj _ _ (Z.b2z m)). apply step_inj; auto; apply lxor_u32; auto using b2z_u32. Qed.
Lemma run_inj : forall w a b, 0 <= a < 2 ^ 32 -> 0 <= b < 2 ^ 32 -> fold_left (feed1 rp) w a = fold_left (feed1 rp) w b -> a = b.
Proof using RPr Top. induction w as [|m w IH]; intros a b A B E; [exact E|]. rewrite !fold_cons in E. apply IH in E; auto using feed1_u32. eapply feed1_inj; eauto. Qed.
Lemma steps_inj : forall n a b, 0 <= a < 2 ^ 32 -> 0 <= b < 2 ^ 32 -> steps rp n a = steps rp n b -> a = b.
Proof using RPr Top. induction n as [|n IH]; intros a b A B E; [exact E|]. cbn [steps] in E. apply IH in E; try (apply step_u32; auto). eapply step_inj; eauto. Qed.
(** every state comes from some state *)
Definition unstep (y : Z) : Z := if Z.testbit y 31 then 2 * Z.lxor y rp + 1 else 2 * y.
Lemma lxor_top y : 0 <= y < 2 ^ 32 -> Z.testbit y 31 = true -> 0 <= Z.lxor y rp < 2 ^ 31.
Proof using RPr Top.
  intros Y T. pose proof (lxor_u32 y rp Y RPr) as [L H]. split; [exact L|]. apply Z.nle_gt. intros C.
  assert (N : Z.testbit (Z.lxor y rp) 31 = true).
  { apply Z.testbit_true; [lia|]. assert (Z.lxor y rp / 2 ^ 31 = 1); [|lia]. apply Z.le_antisymm; [apply Z.lt_succ_r; apply Z.div_lt_upper_bound; lia|apply Z.div_le_lower_bound; lia]. }
  rewrite Z.lxor_spec, T, Top in N. discriminate.
Qed.
Lemma unstep_ok y : 0 <= y < 2 ^ 32 -> 0 <= unstep y < 2 ^ 32 /\ step rp (unstep y) = y.
Proof using RPr Top.
  intros Y. unfold unstep. destruct (Z.testbit y 31) eqn:T.
  - pose proof (lxor_top y Y T). split; [lia|]. unfold step. replace (Z.odd (2 * Z.lxor y rp + 1)) with true by (rewrite Z.add_comm, Z.odd_add_mul_2; reflexivity).
    rewrite Z.shiftr_div_pow2 by lia. change (2 ^ 1) with 2. replace ((2 * Z.lxor y rp + 1) / 2) with (Z.lxor y rp) by (apply Z.div_unique with (r := 1); lia).
    now rewrite Z.lxor_assoc, Z.lxor_nilpotent, Z.lxor_0_r.
  - assert (y < 2 ^ 31). { apply Z.nle_gt. intros C. assert (Z.testbit y 31 = true); [|congruence]. apply Z.testbit_true; [lia|]. assert (y / 2 ^ 31 = 1); [|lia]. apply Z.le_antisymm; [apply Z.lt_succ_r; apply Z.div_lt_upper_bound; lia|apply Z.div_le_lower_bound; lia]. }
    split; [lia|]. now apply step_double.
Qed.
Lemma steps_surj : forall n y, 0 <= y < 2 ^ 32 -> exists x, 0 <= x < 2 ^ 32 /\ steps rp n x = y.
Proof using RPr Top.
  induction n as [|n IH]; intros y Y; [now exists y|]. destruct (IH y Y) as (x & X & E). destruct (unstep_ok x X) as [U S]. exists (unstep x). split; [exact U|]. cbn [steps]. now rewrite S.
Qed.
Lemma feed_bits_num : forall n s v, fold_left (feed1 rp) (bitsn n v) s = feed rp n s v.
Proof. induction n as [|n IH]; intros s v; [reflexivity|]. rewrite bitsn_S, fold_cons. cbn [feed]. apply IH. Qed.
Lemma run_short w s : fold_left (feed1 rp) w s = steps rp (length w) (Z.lxor s (val w)).
Proof using RPr. rewrite <- (bitsn_val w) at 1. rewrite feed_bits_num. apply feed_ok; auto. apply val_range. Qed.
(** ---------- bursts ---------- *)
Lemma burst p x y t : length x = length y -> (length x <= 32)%nat -> x <> y ->
  fold_left (reg_step (gen_bits g)) (p ++ x ++ t) (repeat true 32) <> fold_left (reg_step (gen_bits g)) (p ++ y ++ t) (repeat true 32).
Proof using G RPr Top.
  intros L B N E. change (repeat true 32) with (bitsn 32 (2 ^ 32 - 1)) in E. rewrite !fold_left_app in E.
  destruct (run_num p (2 ^ 32 - 1) ltac:(lia)) as [E1 R1]. rewrite E1 in E. set (s := fold_left (feed1 rp) p (2 ^ 32 - 1)) in *.
  destruct (run_num x s R1) as [E2 R2]. destruct (run_num y s R1) as [E3 R3]. rewrite E2, E3 in E.
  destruct (run_num t _ R2) as [E4 R4]. destruct (run_num t _ R3) as [E5 R5]. rewrite E4, E5 in E.
  apply (bitsn_inj 32) in E; auto. apply run_inj in E; auto. rewrite !run_short, L in E. pose proof (val_range x) as Vx. pose proof (val_range y) as Vy.
  assert (P : 2 ^ Z.of_nat (length x) <= 2 ^ 32) by (apply Z.pow_le_mono_r; lia).
  apply steps_inj in E; try (apply lxor_u32; [auto|]; rewrite <- ?L in *; lia).
  rewrite !(Z.lxor_comm s) in E. apply lxor_inj in E. apply N. now apply val_inj.
Qed.
End Num.

(** ---------- the register as a polynomial ---------- *)
Lemma poly_app a : forall b, poly (a ++ b) = poly a * 2 ^ Z.of_nat (length b) + poly b.
Proof.
  intros b. unfold poly. rewrite fold_left_app. generalize (fold_left (fun a b => 2 * a + Z.b2z b) a 0). clear a.
  assert (H : forall b z, fold_left (fun a b => 2 * a + Z.b2z b) b z = z * 2 ^ Z.of_nat (length b) + fold_left (fun a b => 2 * a + Z.b2z b) b 0); [|intros; apply H].
  clear b. induction b as [|x b IH]; intros z; [cbn; lia|]. rewrite !fold_cons. rewrite IH, (IH (2 * 0 + Z.b2z x)). cbn [length]. rewrite Nat2Z.inj_succ, Z.pow_succ_r by lia. lia.
Qed.
Lemma poly_range : forall l, 0 <= poly l < 2 ^ Z.of_nat (length l).
Proof.
  intros l. induction l as [|b l IH] using rev_ind; [cbn; lia|]. rewrite poly_app, app_length. change (Z.of_nat (length [b])) with 1. cbn [length].
  rewrite Nat2Z.inj_add. change (Z.of_nat 1) with 1. rewrite Z.pow_add_r by lia. change (2 ^ 1) with 2. destruct b; change (poly [true]) with 1 || change (poly [false]) with 0; lia.
Qed.
Lemma poly_snoc l b : poly (l ++ [b]) = 2 * poly l + Z.b2z b.
Proof. rewrite poly_app. change (Z.of_nat (length [b])) with 1. destruct b; change (poly [true]) with 1 || change (poly [false]) with 0; cbn [Z.b2z]; lia. Qed.
Lemma shiftl_lxor_add a k b : 0 <= k -> 0 <= b < 2 ^ k -> Z.lxor (a * 2 ^ k) b = a * 2 ^ k + b.
Proof.
  intros K B. rewrite <- (Z.add_nocarry_lxor); [reflexivity|]. apply Z.bits_inj'. intros n Hn. rewrite Z.land_spec, Z.bits_0. destruct (Z_lt_le_dec n k).
  - rewrite Z.mul_pow2_bits_low by auto. reflexivity.
  - rewrite <- (Z.mod_small b (2 ^ k)) by auto. rewrite Z.mod_pow2_bits_high by lia. apply andb_false_r.
Qed.
Lemma lxor_pow2 a b k : 0 <= k -> Z.lxor (a * 2 ^ k) (b * 2 ^ k) = Z.lxor a b * 2 ^ k.
Proof. intros K. rewrite <- !Z.shiftl_mul_pow2 by auto. symmetry. apply Z.shiftl_lxor. Qed.
Lemma lxor_double a b : Z.lxor (2 * a) (2 * b) = 2 * Z.lxor a b.
Proof. pose proof (lxor_pow2 a b 1 ltac:(lia)) as H. change (2 ^ 1) with 2 in H. rewrite !(Z.mul_comm 2). exact H. Qed.
Lemma double_bit a b : Z.lxor (2 * a) (Z.b2z b) = 2 * a + Z.b2z b.
Proof. pose proof (shiftl_lxor_add a 1 (Z.b2z b) ltac:(lia) ltac:(destruct b; cbn; lia)) as H. change (2 ^ 1) with 2 in H. rewrite !(Z.mul_comm 2). exact H. Qed.
Lemma lxor_swap a b c d : Z.lxor (Z.lxor a b) (Z.lxor c d) = Z.lxor (Z.lxor a c) (Z.lxor b d).
Proof. rewrite !Z.lxor_assoc. f_equal. rewrite <- !Z.lxor_assoc. f_equal. apply Z.lxor_comm. Qed.
Lemma xor_bits_snoc : forall a b x y, length a = length b -> xor_bits (a ++ [x]) (b ++ [y]) = xor_bits a b ++ [xorb x y].
Proof. induction a as [|u a IH]; intros [|v b] x y L; try discriminate; [reflexivity|]. cbn [app xor_bits]. f_equal. apply IH. now injection L. Qed.
Lemma xor_bits_length : forall a b, length a = length b -> length (xor_bits a b) = length a.
Proof. induction a as [|u a IH]; intros [|v b] L; try discriminate; [reflexivity|]. cbn. f_equal. apply IH. now injection L. Qed.
Lemma poly_xor : forall a b, length a = length b -> poly (xor_bits a b) = Z.lxor (poly a) (poly b).
Proof.
  induction a as [|x a IH] using rev_ind; intros b L; [destruct b; [reflexivity|discriminate]|]. rewrite app_length in L. cbn [length] in L.
  destruct b as [|y b _] using rev_ind; [cbn in L; lia|]. rewrite app_length in L. cbn [length] in L. assert (L2 : length a = length b) by lia.
  rewrite xor_bits_snoc, !poly_snoc by auto. rewrite <- !double_bit, IH by auto. rewrite lxor_swap, lxor_double. f_equal. destruct x, y; reflexivity.
Qed.
Lemma poly_negb l : poly (map negb l) = Z.lxor (poly l) (2 ^ Z.of_nat (length l) - 1).
Proof.
  induction l as [|b l IH] using rev_ind; [reflexivity|]. rewrite map_app. cbn [map]. rewrite !poly_snoc, IH, app_length. cbn [length].
  rewrite <- !double_bit. replace (2 ^ Z.of_nat (length l + 1) - 1) with (2 * (2 ^ Z.of_nat (length l) - 1) + Z.b2z true) by (rewrite Nat2Z.inj_add, Z.pow_add_r by lia; change (2 ^ Z.of_nat 1) with 2; cbn [Z.b2z]; lia).
  rewrite <- double_bit. rewrite lxor_swap, lxor_double. f_equal. destruct b; reflexivity.
Qed.
Lemma reg_length gs : length gs = 32%nat -> forall r m, length r = 32%nat -> length (reg_step gs r m) = 32%nat.
Proof.
  intros Lg [|t r] m L; [discriminate|]. injection L as L. cbn [reg_step]. assert (length (r ++ [false]) = 32%nat) by (rewrite app_length; cbn; lia). destruct (xorb t m); [rewrite xor_bits_length; lia|auto].
Qed.
Lemma run_length gs : length gs = 32%nat -> forall w r, length r = 32%nat -> length (fold_left (reg_step gs) w r) = 32%nat.
Proof. intros Lg. induction w as [|m w IH]; intros r L; [exact L|]. rewrite fold_cons. apply IH. now apply reg_length. Qed.
(** one step: x * R + m * x^32 = t * (x^32 + G) + R' *)
Lemma reg_poly gs r m : length gs = 32%nat -> length r = 32%nat ->
  exists t : bool, Z.lxor (2 * poly r) (Z.b2z m * 2 ^ 32) = Z.lxor (if t then 2 ^ 32 + poly gs else 0) (poly (reg_step gs r m)).
Proof.
  intros Lg L. destruct r as [|t r]; [discriminate|]. injection L as L. exists (xorb t m). cbn [reg_step].
  assert (P : 2 * poly (t :: r) = Z.lxor (Z.b2z t * 2 ^ 32) (poly (r ++ [false]))).
  { rewrite poly_snoc. cbn [Z.b2z]. pose proof (poly_range r) as R. rewrite L in R. change (2 ^ Z.of_nat 31) with (2 ^ 31) in R. rewrite shiftl_lxor_add by lia.
    change (t :: r) with ([t] ++ r). rewrite poly_app, L. change (2 ^ Z.of_nat 31) with (2 ^ 31). destruct t; change (poly [true]) with 1 || change (poly [false]) with 0; cbn [Z.b2z]; lia. }
  rewrite P. rewrite Z.lxor_assoc, (Z.lxor_comm (poly _)), <- Z.lxor_assoc, lxor_pow2 by lia.
  pose proof (poly_range gs) as Rg. rewrite Lg in Rg. change (2 ^ Z.of_nat 32) with (2 ^ 32) in Rg.
  destruct (xorb t m) eqn:X.
  - rewrite poly_xor by (rewrite app_length; cbn; lia). replace (Z.lxor (Z.b2z t) (Z.b2z m)) with 1 by (destruct t, m; try discriminate; reflexivity).
    pose proof (shiftl_lxor_add 1 32 (poly gs) ltac:(lia) Rg) as E1. change (1 * 2 ^ 32) with (2 ^ 32) in *. rewrite <- E1. rewrite Z.lxor_assoc. f_equal. rewrite (Z.lxor_comm (poly (r ++ _))), <- Z.lxor_assoc, Z.lxor_nilpotent. now rewrite Z.lxor_0_l.
  - replace (Z.lxor (Z.b2z t) (Z.b2z m)) with 0 by (destruct t, m; try discriminate; reflexivity). reflexivity.
Qed.
Lemma pmul_snoc q t g : pmul (q ++ [t]) g = Z.lxor (2 * pmul q g) (if t then g else 0).
Proof. unfold pmul. now rewrite fold_left_app. Qed.
Lemma run_poly gs r0 : length gs = 32%nat -> length r0 = 32%nat -> forall w, exists q,
  Z.lxor (poly w * 2 ^ 32) (poly r0 * 2 ^ Z.of_nat (length w)) = Z.lxor (pmul q (2 ^ 32 + poly gs)) (poly (fold_left (reg_step gs) w r0)).
Proof.
  intros Lg L0 w. induction w as [|m w IH] using rev_ind.
  - exists []. cbn [length fold_left]. change (poly []) with 0. change (pmul [] _) with 0. change (2 ^ Z.of_nat 0) with 1. rewrite Z.mul_0_l, Z.mul_1_r. reflexivity.
  - destruct IH as (q & IH). rewrite fold_left_app. cbn [fold_left]. set (r := fold_left (reg_step gs) w r0) in *.
    assert (Lr : length r = 32%nat) by (apply run_length; auto). destruct (reg_poly gs r m Lg Lr) as (t & E).
    exists (q ++ [t]). rewrite pmul_snoc, Z.lxor_assoc, <- E. rewrite poly_snoc, <- double_bit, <- lxor_pow2 by lia. rewrite app_length. cbn [length]. rewrite Nat2Z.inj_add, Z.pow_add_r by lia. change (2 ^ Z.of_nat 1) with 2.
    rewrite <- Z.lxor_assoc, lxor_double, <- IH, <- lxor_double.
    rewrite Z.lxor_assoc, (Z.lxor_comm (Z.b2z m * 2 ^ 32)), <- Z.lxor_assoc. f_equal. f_equal; ring.
Qed.
(** ---------- the message with its checksum ---------- *)
Lemma poly_cat a b : poly (a ++ b) = Z.lxor (poly a * 2 ^ Z.of_nat (length b)) (poly b).
Proof. rewrite poly_app. symmetry. apply shiftl_lxor_add; [lia|apply poly_range]. Qed.
Lemma flip_last_app a b : length b = 32%nat -> flip_last (a ++ b) = a ++ map negb b.
Proof.
  intros L. unfold flip_last, flip_first. assert (E : length (rev b) = 32%nat) by (now rewrite rev_length).
  rewrite (rev_app_distr a b). rewrite firstn_app, skipn_app, E. rewrite Nat.sub_diag. rewrite firstn_all2 by lia. rewrite skipn_all2 by lia. cbn [firstn skipn]. rewrite app_nil_r. cbn [app].
  rewrite rev_app_distr, rev_involutive. f_equal. rewrite <- map_rev, rev_involutive. reflexivity.
Qed.
Lemma poly_flip_first l : (32 <= length l)%nat -> poly (flip_first l) = Z.lxor (poly l) ((2 ^ 32 - 1) * 2 ^ Z.of_nat (length l - 32)).
Proof.
  intros L. unfold flip_first. rewrite <- (firstn_skipn 32 l) at 3. rewrite !poly_cat, skipn_length. rewrite poly_negb, firstn_length, Nat.min_l by auto. change (2 ^ Z.of_nat 32) with (2 ^ 32).
  rewrite <- lxor_pow2 by lia. rewrite !Z.lxor_assoc. f_equal. apply Z.lxor_comm.
Qed.
Lemma gen_length g : length (gen_bits g) = 32%nat.
Proof. unfold gen_bits. now rewrite map_length, rev_length, seq_length. Qed.
Lemma crc_length g data : length (crc g data) = 32%nat.
Proof. unfold crc. rewrite map_length. apply run_length; [apply gen_length|reflexivity]. Qed.
Lemma negb_twice l : map negb (map negb l) = l.
Proof. rewrite map_map. rewrite <- (map_id l) at 2. apply map_ext. apply negb_involutive. Qed.
Lemma crc_multiple g data : poly (gen_bits g) = g -> multiple g (flip_first (flip_last (wire_bits data ++ crc g data))).
Proof.
  intros Pg. set (w := wire_bits data). rewrite flip_last_app by apply crc_length. unfold crc. fold w. rewrite negb_twice. set (r := fold_left (reg_step (gen_bits g)) w (repeat true 32)).
  assert (Lr : length r = 32%nat) by (apply run_length; [apply gen_length|reflexivity]).
  destruct (run_poly (gen_bits g) (repeat true 32) (gen_length g) eq_refl w) as (q & E). fold r in E. exists q.
  rewrite poly_flip_first by (rewrite app_length; lia). rewrite app_length, Lr. replace (length w + 32 - 32)%nat with (length w) by lia. rewrite poly_cat, Lr. change (2 ^ Z.of_nat 32) with (2 ^ 32).
  change (poly (repeat true 32)) with (2 ^ 32 - 1) in E. rewrite Pg in E.
  rewrite Z.lxor_assoc, (Z.lxor_comm (poly r)), <- Z.lxor_assoc, E. now rewrite Z.lxor_assoc, Z.lxor_nilpotent, Z.lxor_0_r.
Qed.
(** x^32 is no multiple *)
Lemma pmul_top g : 0 <= g < 2 ^ 32 -> forall q, 2 ^ (32 + Z.of_nat (length q)) <= pmul (true :: q) (2 ^ 32 + g) < 2 ^ (33 + Z.of_nat (length q)).
Proof.
  intros G q. induction q as [|b q IH] using rev_ind; [unfold pmul; cbn [fold_left length]; rewrite Z.lxor_0_l; change (2 ^ (32 + Z.of_nat 0)) with (2 ^ 32); change (2 ^ (33 + Z.of_nat 0)) with (2 * 2 ^ 32); lia|].
  rewrite app_length. cbn [length]. rewrite Nat2Z.inj_add. change (Z.of_nat 1) with 1. change (true :: q ++ [b]) with ((true :: q) ++ [b]). rewrite pmul_snoc.
  set (z := pmul (true :: q) (2 ^ 32 + g)) in *. set (k := Z.of_nat (length q)) in *. assert (K : 0 <= k) by lia.
  set (h := if b then 2 ^ 32 + g else 0). assert (H : 0 <= h < 2 ^ (33 + k)).
  { assert (2 ^ 33 <= 2 ^ (33 + k)) by (apply Z.pow_le_mono_r; lia). change (2 ^ 33) with (2 * 2 ^ 32) in *. unfold h. destruct b; lia. }
  replace (2 ^ (32 + (k + 1))) with (2 ^ (33 + k)) by (f_equal; lia). replace (2 ^ (33 + (k + 1))) with (2 * 2 ^ (33 + k)) by (rewrite <- Z.pow_succ_r by lia; f_equal; lia).
  assert (E : 2 * z = 1 * 2 ^ (33 + k) + (2 * z - 2 ^ (33 + k))) by lia. assert (2 ^ (33 + k) = 2 * 2 ^ (32 + k)) by (rewrite <- Z.pow_succ_r by lia; f_equal; lia).
  rewrite E, <- shiftl_lxor_add by lia. rewrite Z.lxor_assoc. assert (B : 0 <= Z.lxor (2 * z - 2 ^ (33 + k)) h < 2 ^ (33 + k)).
  { clear -H H0 IH K. assert (A : 0 <= 2 * z - 2 ^ (33 + k) < 2 ^ (33 + k)) by lia. revert A H. generalize (2 * z - 2 ^ (33 + k)). intros a A H. clear H0 IH. assert (N : 0 <= 33 + k) by lia. generalize dependent (33 + k). intros n H A N.
    split; [apply Z.lxor_nonneg; lia|]. rewrite <- (Z.mod_small a (2 ^ n)), <- (Z.mod_small h (2 ^ n)) by auto. rewrite <- !Z.land_ones by auto.
    replace (Z.lxor (Z.land a (Z.ones n)) (Z.land h (Z.ones n))) with (Z.land (Z.lxor a h) (Z.ones n)); [rewrite Z.land_ones by auto; apply Z.mod_pos_bound; apply Z.pow_pos_nonneg; lia|].
    apply Z.bits_inj'. intros i Hi. rewrite !Z.land_spec, !Z.lxor_spec, !Z.land_spec. destruct (Z.testbit a i), (Z.testbit h i), (Z.testbit (Z.ones n) i); reflexivity. }
  rewrite shiftl_lxor_add by lia. lia.
Qed.
Lemma pmul_strip q g : pmul (false :: q) g = pmul q g.
Proof. reflexivity. Qed.
Lemma pow_no_multiple g : 0 < g < 2 ^ 32 -> ~ multiple g (true :: repeat false 32).
Proof.
  intros G (q & E). change (poly (true :: repeat false 32)) with (2 ^ 32) in E. induction q as [|[|] q IH]; [discriminate E| |exact (IH E)].
  pose proof (pmul_top g ltac:(lia) q) as [A _]. rewrite <- E in A. destruct q as [|b q].
  - unfold pmul in E. cbn [fold_left] in E. rewrite Z.mul_0_r, Z.lxor_0_l in E. lia.
  - cbn [length] in A. assert (2 ^ 33 <= 2 ^ (32 + Z.of_nat (S (length q)))) by (apply Z.pow_le_mono_r; lia). change (2 ^ 33) with (2 * 2 ^ 32) in *. lia.
Qed.
(** ---------- parity ---------- *)
Lemma parity_app a b : parity (a ++ b) = xorb (parity a) (parity b).
Proof. unfold parity. induction a as [|x a IH]; cbn [app fold_right]; [symmetry; apply xorb_false_l|]. rewrite IH. symmetry. apply xorb_assoc. Qed.
Lemma parity_xor : forall a b, length a = length b -> parity (xor_bits a b) = xorb (parity a) (parity b).
Proof. induction a as [|x a IH]; intros [|y b] L; try discriminate; [reflexivity|]. cbn [xor_bits]. unfold parity in *. cbn [fold_right]. rewrite IH by now injection L. fold (parity a) (parity b). destruct x, y, (parity a), (parity b); reflexivity. Qed.
Lemma reg_parity gs r m : length gs = 32%nat -> length r = 32%nat -> parity gs = true -> parity (reg_step gs r m) = xorb (parity r) m.
Proof.
  intros Lg L P. destruct r as [|t r]; [discriminate|]. injection L as L. cbn [reg_step]. cbn [parity fold_right]. fold (parity r). destruct (xorb t m) eqn:X.
  - rewrite parity_xor by (rewrite app_length; cbn; lia). rewrite parity_app, P. change (parity [false]) with false. destruct t, m, (parity r); try discriminate; reflexivity.
  - rewrite parity_app. change (parity [false]) with false. destruct t, m, (parity r); try discriminate; reflexivity.
Qed.
Lemma run_parity gs : length gs = 32%nat -> parity gs = true -> forall w r, length r = 32%nat -> parity (fold_left (reg_step gs) w r) = xorb (parity r) (parity w).
Proof.
  intros Lg P. induction w as [|m w IH]; intros r L; [cbn; now rewrite xorb_false_r|]. rewrite fold_cons, IH by now apply reg_length. rewrite reg_parity by auto. change (parity (m :: w)) with (xorb m (parity w)). apply xorb_assoc.
Qed.
Lemma parity_negb32 l : length l = 32%nat -> parity (map negb l) = parity l.
Proof.
  intros L. assert (H : forall l, parity (map negb l) = xorb (Nat.odd (length l)) (parity l)).
  { clear. induction l as [|b l IH]; [reflexivity|]. cbn [map length]. cbn [parity fold_right]. fold (parity (map negb l)) (parity l). rewrite IH, Nat.odd_succ, <- Nat.negb_odd. destruct (Nat.odd (length l)), b, (parity l); reflexivity. }
  rewrite H, L. apply xorb_false_l.
Qed.
Lemma crc_parity g data : parity (gen_bits g) = true -> parity (crc g data) = parity (wire_bits data).
Proof.
  intros P. unfold crc. rewrite parity_negb32 by (apply run_length; [apply gen_length|reflexivity]). rewrite run_parity by (auto using gen_length). change (parity (repeat true 32)) with false. apply xorb_false_l.
Qed.
(** ---------- four more bytes ---------- *)
Definition le4 (v : Z) : list Z := [Z.land v 255; Z.land (Z.shiftr v 8) 255; Z.land (Z.shiftr v 16) 255; Z.land (Z.shiftr v 24) 255].
Lemma le4_bits v : wire_bits (le4 v) = bitsn 32 v /\ bytes (le4 v) /\ zlen (le4 v) = 4.
Proof.
  split; [|split; [|reflexivity]].
  - unfold le4, wire_bits. cbn [map concat]. replace (Z.land v 255) with (Z.land (Z.shiftr v 0) 255) by (now rewrite Z.shiftr_0_r). rewrite !byte_bits_at by lia. unfold bitsn. cbn [seq map app Z.of_nat Pos.of_succ_nat Pos.succ Z.add Pos.add]. reflexivity.
  - unfold le4. repeat (apply bytes_cons; split; [change 255 with (Z.ones 8); rewrite Z.land_ones by lia; unfold byte; change 256 with (2 ^ 8); apply Z.mod_pos_bound; lia|]). constructor.
Qed.
Lemma wire_length : forall l, length (wire_bits l) = (8 * length l)%nat.
Proof. induction l as [|b l IH]; [reflexivity|]. unfold wire_bits in *. cbn [map concat]. rewrite app_length, IH. cbn [length]. change (length (byte_bits b)) with 8%nat. lia. Qed.
Lemma wire_app a b : wire_bits (a ++ b) = wire_bits a ++ wire_bits b.
Proof. unfold wire_bits. now rewrite map_app, concat_app. Qed.
Lemma wire_inj : forall a b, bytes a -> bytes b -> wire_bits a = wire_bits b -> a = b.
Proof.
  induction a as [|x a IH]; intros [|y b] A B E; try reflexivity; try (apply (f_equal (@length bool)) in E; rewrite !wire_length in E; cbn in E; lia).
  apply bytes_cons in A as [Bx A]. apply bytes_cons in B as [By B]. unfold wire_bits in E. cbn [map concat] in E.
  assert (H : byte_bits x = byte_bits y /\ concat (map byte_bits a) = concat (map byte_bits b)).
  { split; [apply (f_equal (firstn 8)) in E|apply (f_equal (skipn 8)) in E]; cbn in E; exact E. }
  destruct H as [H1 H2]. f_equal; [|apply IH; auto]. 
  assert (V : forall z, byte z -> val (byte_bits z) = z).
  { intros z Hz. change (byte_bits z) with (bitsn 8 z). unfold byte in Hz. clear -Hz. assert (S : sweep 256 (fun z => val (bitsn 8 z) =? z) = true) by (vm_compute; reflexivity). apply Z.eqb_eq. apply (sweep_ok _ _ S z). change (Z.of_nat 256) with 256. lia. }
  rewrite <- (V x Bx), <- (V y By). now rewrite H1.
Qed.
Lemma bits_val l : length l = 32%nat -> exists v, 0 <= v < 2 ^ 32 /\ bitsn 32 v = l.
Proof. intros L. exists (val l). split; [pose proof (val_range l) as H; rewrite L in H; exact H|]. rewrite <- L. apply bitsn_val. Qed.
Lemma bitsn_negb v : 0 <= v < 2 ^ 32 -> map negb (bitsn 32 v) = bitsn 32 (Z.lxor v (2 ^ 32 - 1)).
Proof.
  intros V. unfold bitsn. rewrite map_map. apply map_ext_in. intros k I. apply in_seq in I. rewrite Z.lxor_spec. change (2 ^ 32 - 1) with (Z.ones 32). rewrite Z.ones_spec_low by lia. symmetry. apply xorb_true_r.
Qed.
Section Suffix.
Variables (g rp : Z).
Hypothesis G : gen_bits g = bitsn 32 rp.
Hypothesis RPr : 0 <= rp < 2 ^ 32.
Hypothesis Top : Z.testbit rp 31 = true.
Lemma run32 s v : 0 <= s < 2 ^ 32 -> 0 <= v < 2 ^ 32 ->
  fold_left (reg_step (gen_bits g)) (bitsn 32 v) (bitsn 32 s) = bitsn 32 (steps rp 32 (Z.lxor s v)).
Proof using G RPr. intros S V. rewrite (feed_bits g rp G RPr 32 s v S). now rewrite feed_ok. Qed.
Lemma crc_state data : exists s, 0 <= s < 2 ^ 32 /\ fold_left (reg_step (gen_bits g)) (wire_bits data) (repeat true 32) = bitsn 32 s.
Proof using G RPr.
  change (repeat true 32) with (bitsn 32 (2 ^ 32 - 1)). destruct (run_num g rp G RPr (wire_bits data) (2 ^ 32 - 1) ltac:(lia)) as [E R]. eexists. split; [exact R|exact E].
Qed.
(** any checksum can be had by four more bytes *)
Lemma forge data target : length target = 32%nat -> exists x, zlen x = 4 /\ bytes x /\ crc g (data ++ x) = target.
Proof using All.
  intros L. destruct (crc_state data) as (s & S & E). destruct (bits_val (map negb target) ltac:(now rewrite map_length)) as (y & Y & Ey).
  destruct (steps_surj rp RPr Top 32 y Y) as (z & Z1 & Ez). set (v := Z.lxor s z). assert (V : 0 <= v < 2 ^ 32) by (apply lxor_u32; auto).
  destruct (le4_bits v) as (B1 & B2 & B3). exists (le4 v). split; [exact B3|]. split; [exact B2|]. unfold crc. rewrite wire_app, fold_left_app, E, B1, run32 by auto.
  unfold v. rewrite <- Z.lxor_assoc, Z.lxor_nilpotent, Z.lxor_0_l, Ez, Ey. apply negb_twice.
Qed.
(** the checksum after the data *)
Lemma residue data c : bytes c -> wire_bits c = crc g data -> crc g (data ++ c) = map negb (bitsn 32 (steps rp 32 (2 ^ 32 - 1))).
Proof using G RPr.
  intros B W. destruct (crc_state data) as (s & S & E). unfold crc in *. rewrite wire_app, fold_left_app, E, W, E. rewrite bitsn_negb by auto. rewrite run32 by (auto; apply lxor_u32; auto; lia).
  now rewrite <- Z.lxor_assoc, Z.lxor_nilpotent, Z.lxor_0_l.
Qed.
End Suffix.
Opaque step steps.
