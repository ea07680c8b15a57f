(** Proofs about sha512: the compression function. *)
From Verif Require Import Base Bits M_sha512 S_hash S_sha512 P_crc32 P_hash.

(** ** words *)
Definition w64 (x : Z) : Prop := 0 <= x < 2 ^ 64.
Lemma u64_eq x : u64 x = x mod 2 ^ 64.
Proof. reflexivity. Qed.
Lemma u64_w x : w64 (u64 x).
Proof. apply Z.mod_pos_bound. lia. Qed.
Lemma add64_w x y : w64 (add64 x y).
Proof. apply Z.mod_pos_bound. lia. Qed.
Lemma hi64 x n : w64 x -> 64 <= n -> Z.testbit x n = false.
Proof.
  intros S N. unfold w64 in S. destruct (Z.eq_dec x 0) as [->|]; [apply Z.bits_0|]. apply Z.bits_above_log2; [lia|]. assert (Z.log2 x < 64) by (apply Z.log2_lt_pow2; lia). lia.
Qed.
Lemma not64_ok x : w64 x -> Z.lxor x 0xffffffffffffffff = not64 x.
Proof.
  intros W. unfold not64. change (2 ^ 64 - 1) with (Z.ones 64). change 0xffffffffffffffff with (Z.ones 64).
  assert (L : Z.ldiff x (Z.ones 64) = 0).
  { apply Z.bits_inj'. intros k Hk. rewrite Z.ldiff_spec, Z.bits_0. destruct (Z_lt_le_dec k 64); [rewrite Z.ones_spec_low by lia; apply andb_false_r|rewrite hi64 by auto; reflexivity]. }
  rewrite Z.sub_nocarry_ldiff by exact L. apply Z.bits_inj'. intros k Hk. rewrite Z.ldiff_spec, Z.lxor_spec.
  destruct (Z_lt_le_dec k 64); [rewrite Z.ones_spec_low by lia|rewrite Z.ones_spec_high, hi64 by (auto; lia)]; destruct (Z.testbit x k); reflexivity.
Qed.
Lemma R_ok x c : w64 x -> 0 < c < 64 -> R x c = rotr c x.
Proof.
  intros W S. unfold R, rotr, w64 in *. rewrite u64_eq, Z.shiftl_mul_pow2, Z.shiftr_div_pow2 by lia.
  assert (E : (x * 2 ^ (64 - c)) mod 2 ^ 64 = (x mod 2 ^ c) * 2 ^ (64 - c)).
  { replace (2 ^ 64) with (2 ^ c * 2 ^ (64 - c)) by (rewrite <- Z.pow_add_r by lia; f_equal; lia). apply Z.mul_mod_distr_r; apply Z.pow_nonzero; lia. }
  rewrite E. rewrite lor_add_r; [lia|lia|]. split; [apply Z.div_pos; [lia|apply Z.pow_pos_nonneg; lia]|]. apply Z.div_lt_upper_bound; [apply Z.pow_pos_nonneg; lia|].
  rewrite <- Z.pow_add_r by lia. replace (c + (64 - c)) with 64 by lia. lia.
Qed.
Lemma Ch_ok x y z : w64 x -> Ch x y z = sha_Ch x y z.
Proof. intros. unfold Ch, sha_Ch. now rewrite not64_ok. Qed.
Lemma Sigma0_ok x : w64 x -> Sigma0 x = S0 x.
Proof. intros. unfold Sigma0, S0. now rewrite !R_ok by (auto; lia). Qed.
Lemma Sigma1_ok x : w64 x -> Sigma1 x = S1 x.
Proof. intros. unfold Sigma1, S1. now rewrite !R_ok by (auto; lia). Qed.
Lemma sigma0_ok x : w64 x -> sigma0 x = s0 x.
Proof. intros. unfold sigma0, s0, shr. now rewrite !R_ok, Z.shiftr_div_pow2 by (auto; lia). Qed.
Lemma sigma1_ok x : w64 x -> sigma1 x = s1 x.
Proof. intros. unfold sigma1, s1, shr. now rewrite !R_ok, Z.shiftr_div_pow2 by (auto; lia). Qed.
Lemma K_ok : K = map sha_K (map Z.of_nat (seq 0 80)).
Proof. vm_compute. reflexivity. Qed.
Opaque sha_K K.
Lemma K_read i : 0 <= i < 80 -> zread K i = Ret (sha_K i).
Proof.
  intros Hi. assert (L : zlen K = 80) by (rewrite K_ok; rewrite zlen_map, zlen_map; reflexivity). rewrite (zread_ok 0) by lia. f_equal. rewrite K_ok.
  rewrite (znth_map _ 0) by (rewrite zlen_map; unfold zlen; rewrite seq_length; lia). f_equal. rewrite (znth_map _ 0%nat) by (unfold zlen; rewrite seq_length; lia). unfold znth. rewrite seq_nth by lia. lia.
Qed.
(** ** loops *)
Lemma for_S {A} n i (b : Z -> A -> out A) s : for_ (S n) i b s = (let* s := b i s in for_ n (i + 1) b s).
Proof. reflexivity. Qed.
Lemma for_app {A} a : forall b i (f : Z -> A -> out A) s, for_ (a + b) i f s = (let* s := for_ a i f s in for_ b (i + Z.of_nat a) f s).
Proof.
  induction a as [|a IH]; intros b i f s; [cbn [plus for_]; rewrite bind_ret; f_equal; lia|]. cbn [plus]. rewrite !for_S. destruct (f i s) as [s'| |]; [|reflexivity|reflexivity].
  rewrite !bind_ret, IH. destruct (for_ a (i + 1) f s') as [s''| |]; [|reflexivity|reflexivity]. rewrite !bind_ret. f_equal. lia.
Qed.
Opaque for_.
Lemma for_0 {A} i (b : Z -> A -> out A) s : for_ 0 i b s = Ret s.
Proof. Transparent for_. reflexivity. Opaque for_. Qed.
(** ** one round *)
Ltac list8 a := destruct a as [|?a0 [|?a1 [|?a2 [|?a3 [|?a4 [|?a5 [|?a6 [|?a7 [|? ?]]]]]]]]]; try discriminate.
Lemma copy8 (a0 a1 a2 a3 a4 a5 a6 a7 : Z) : let a := [a0; a1; a2; a3; a4; a5; a6; a7] in for_ 8 0 (fun j b => let* v := zread a j in zwrite b j v) a = Ret a.
Proof. Transparent for_. reflexivity. Opaque for_. Qed.
Lemma rot8 (a0 a1 a2 a3 a4 a5 a6 a7 b0 b1 b2 b3 b4 b5 b6 b7 : Z) : for_ 8 0 (fun j a => let* v := zread [b0; b1; b2; b3; b4; b5; b6; b7] j in zwrite a ((j + 1) mod 8) v) [a0; a1; a2; a3; a4; a5; a6; a7] = Ret [b7; b0; b1; b2; b3; b4; b5; b6].
Proof. Transparent for_. reflexivity. Opaque for_. Qed.
Ltac rd8 := repeat match goal with |- context [zread [?a0; ?a1; ?a2; ?a3; ?a4; ?a5; ?a6; ?a7] ?k] => let v := eval cbv in (zread [a0; a1; a2; a3; a4; a5; a6; a7] k) in change (zread [a0; a1; a2; a3; a4; a5; a6; a7] k) with v; rewrite bind_ret end.
Definition sched_step (j : Z) (w : list Z) : out (list Z) :=
  let* v := zread w j in let* v9 := zread w ((j + 9) mod 16) in
  let* v1 := zread w ((j + 1) mod 16) in let* v14 := zread w ((j + 14) mod 16) in
  zwrite w j (u64 (v + (v9 + sigma0 v1 + sigma1 v14))).
Lemma u64_add x y : u64 (x + y) = add64 (u64 x) y.
Proof. rewrite !u64_eq. unfold add64. now rewrite Z.add_mod_idemp_l by lia. Qed.
Lemma sum5 a b c d e : u64 (a + b + c + d + e) = add64 (add64 (add64 (add64 a b) c) d) e.
Proof. now rewrite 3!u64_add. Qed.
Lemma sum3 a b c : u64 (a + b + c) = add64 a (add64 b c).
Proof. rewrite u64_eq. unfold add64. rewrite Z.add_mod_idemp_r by lia. f_equal. lia. Qed.
Lemma round_ok i W a w : 0 <= i < 80 -> length a = 8%nat -> Forall w64 a -> zread w (i mod 16) = Ret (znth 0 W i) ->
  round i (a, w) = (let* w := (if i mod 16 =? 15 then for_ 16 0 sched_step w else Ret w) in Ret (sha_step W a i, w)).
Proof.
  intros Hi L Fa Hw. list8 a. unfold round. rewrite copy8, bind_ret.
  rd8.
  rewrite (K_read i Hi), bind_ret, Hw, bind_ret. cbv zeta. rd8.
  repeat match goal with H : Forall w64 (_ :: _) |- _ => inversion H; clear H; subst end.
  rewrite Sigma1_ok, Ch_ok, Sigma0_ok by auto. rewrite sum5, sum3.
  unfold sha_step. cbv zeta. set (T1 := add64 (add64 _ _) (znth 0 W i)). set (T2 := add64 (S0 a0) _).
  change (zwrite [a0; a1; a2; a3; a4; a5; a6; a7] 7 (add64 T1 T2)) with (Ret [a0; a1; a2; a3; a4; a5; a6; add64 T1 T2]). rewrite bind_ret.
  change (zread [a0; a1; a2; a3; a4; a5; a6; add64 T1 T2] 3) with (Ret a3). rewrite bind_ret.
  change (zwrite [a0; a1; a2; a3; a4; a5; a6; add64 T1 T2] 3 (u64 (a3 + T1))) with (Ret [a0; a1; a2; add64 a3 T1; a4; a5; a6; add64 T1 T2]). rewrite bind_ret.
  rewrite rot8, bind_ret. reflexivity.
Qed.
Lemma step_len W v t : length v = 8%nat -> length (sha_step W v t) = 8%nat.
Proof. intros L. list8 v. reflexivity. Qed.
Lemma step_w W v t : length v = 8%nat -> Forall w64 v -> Forall w64 (sha_step W v t).
Proof. intros L Fa. list8 v. repeat match goal with H : Forall w64 (_ :: _) |- _ => inversion H; clear H; subst end. unfold sha_step. cbv zeta. repeat (apply Forall_cons; [first [assumption|apply add64_w]|]); apply Forall_nil. Qed.
(** ** the schedule *)
Lemma schedule_S n w : schedule (S n) w = schedule n (w ++ [add64 (add64 (add64 (s1 (znth 0 w (zlen w - 2))) (znth 0 w (zlen w - 7))) (s0 (znth 0 w (zlen w - 15)))) (znth 0 w (zlen w - 16))]).
Proof. reflexivity. Qed.
Lemma schedule_len n : forall w, zlen (schedule n w) = zlen w + Z.of_nat n.
Proof. induction n as [|n IH]; intros w; [cbn [schedule]; lia|]. rewrite schedule_S, IH. zl. lia. Qed.
Lemma schedule_low n : forall w t, 0 <= t < zlen w -> znth 0 (schedule n w) t = znth 0 w t.
Proof. induction n as [|n IH]; intros w t Ht; [reflexivity|]. rewrite schedule_S, IH by (zl; lia). apply znth_app1. lia. Qed.
Lemma schedule_add a : forall b w, schedule (a + b) w = schedule b (schedule a w).
Proof. induction a as [|a IH]; intros b w; [reflexivity|]. cbn [plus]. rewrite !schedule_S. apply IH. Qed.
Lemma schedule_w n : forall w, Forall w64 w -> Forall w64 (schedule n w).
Proof. induction n as [|n IH]; intros w Fa; [exact Fa|]. rewrite schedule_S. apply IH. apply Forall_app. split; [auto|]. apply Forall_cons; [apply add64_w|apply Forall_nil]. Qed.
Lemma schedule_rec n w t : zlen w = 16 -> 16 <= t < 16 + Z.of_nat n ->
  let W := schedule n w in znth 0 W t = add64 (add64 (add64 (s1 (znth 0 W (t - 2))) (znth 0 W (t - 7))) (s0 (znth 0 W (t - 15)))) (znth 0 W (t - 16)).
Proof.
  intros L Ht. cbv zeta. replace n with (Z.to_nat (t - 16) + (1 + (n - 1 - Z.to_nat (t - 16))))%nat by lia. rewrite schedule_add. set (W0 := schedule (Z.to_nat (t - 16)) w).
  assert (L0 : zlen W0 = t) by (unfold W0; rewrite schedule_len; lia). cbn [plus]. rewrite schedule_S. rewrite !schedule_low by (zl; lia).
  rewrite <- L0 at 1. rewrite znth_app_exact. rewrite !znth_app1 by lia. now rewrite L0.
Qed.
Definition slice (W : list Z) (g : Z) (w : list Z) : Prop := zlen w = 16 /\ forall k, 0 <= k < 16 -> znth 0 w k = znth 0 W (16 * g + k).
Definition mixed (W : list Z) (g j : Z) (w : list Z) : Prop :=
  zlen w = 16 /\ forall k, 0 <= k < 16 -> znth 0 w k = znth 0 W (if k <? j then 16 * (g + 1) + k else 16 * g + k).
Lemma sum4 a b c d : u64 (a + (b + c + d)) = add64 (add64 (add64 d b) c) a.
Proof. replace (a + (b + c + d)) with (d + b + c + a) by lia. now rewrite 2!u64_add. Qed.
Lemma znth_w W t : Forall w64 W -> w64 (znth 0 W t).
Proof.
  intros Fa. unfold znth. destruct (nth_in_or_default (Z.to_nat t) W 0) as [H| ->]; [|unfold w64; lia]. rewrite Forall_forall in Fa. now apply Fa.
Qed.
Lemma sched_step_ok W m n g j w : W = schedule n m -> zlen m = 16 -> Forall w64 m -> 0 <= g -> 0 <= j < 16 -> 16 * (g + 2) <= zlen W -> mixed W g j w ->
  exists w', sched_step j w = Ret w' /\ mixed W g (j + 1) w'.
Proof.
  intros EW Lm Fm G J LW [L M]. assert (FW : Forall w64 W) by (subst W; now apply schedule_w). pose proof (schedule_len n m) as LS. rewrite <- EW in LS.
  unfold sched_step. rewrite !(zread_ok 0) by (rewrite L; lia || apply Z.mod_pos_bound; lia). rewrite !bind_ret.
  rewrite !M by (lia || apply Z.mod_pos_bound; lia).
  replace (if j <? j then 16 * (g + 1) + j else 16 * g + j) with (16 * (g + 1) + j - 16) by (rewrite Z.ltb_irrefl; lia).
  assert (E9 : (if (j + 9) mod 16 <? j then 16 * (g + 1) + (j + 9) mod 16 else 16 * g + (j + 9) mod 16) = 16 * (g + 1) + j - 7).
  { assert (E : (j + 9) mod 16 = if j <? 7 then j + 9 else j - 7) by (destruct (Z.ltb_spec j 7); [apply Z.mod_small; lia|symmetry; apply (Z.mod_unique _ _ 1); lia]).
    rewrite E. destruct (Z.ltb_spec j 7); [destruct (Z.ltb_spec (j + 9) j)|destruct (Z.ltb_spec (j - 7) j)]; lia. }
  assert (E1 : (if (j + 1) mod 16 <? j then 16 * (g + 1) + (j + 1) mod 16 else 16 * g + (j + 1) mod 16) = 16 * (g + 1) + j - 15).
  { assert (E : (j + 1) mod 16 = if j <? 15 then j + 1 else j - 15) by (destruct (Z.ltb_spec j 15); [apply Z.mod_small; lia|symmetry; apply (Z.mod_unique _ _ 1); lia]).
    rewrite E. destruct (Z.ltb_spec j 15); [destruct (Z.ltb_spec (j + 1) j)|destruct (Z.ltb_spec (j - 15) j)]; lia. }
  assert (E14 : (if (j + 14) mod 16 <? j then 16 * (g + 1) + (j + 14) mod 16 else 16 * g + (j + 14) mod 16) = 16 * (g + 1) + j - 2).
  { assert (E : (j + 14) mod 16 = if j <? 2 then j + 14 else j - 2) by (destruct (Z.ltb_spec j 2); [apply Z.mod_small; lia|symmetry; apply (Z.mod_unique _ _ 1); lia]).
    rewrite E. destruct (Z.ltb_spec j 2); [destruct (Z.ltb_spec (j + 14) j)|destruct (Z.ltb_spec (j - 2) j)]; lia. }
  rewrite E9, E1, E14. rewrite sigma0_ok, sigma1_ok by now apply znth_w. rewrite sum4. rewrite zwrite_ok by lia. eexists. split; [reflexivity|].
  assert (Rec : znth 0 W (16 * (g + 1) + j) = add64 (add64 (add64 (s1 (znth 0 W (16 * (g + 1) + j - 2))) (znth 0 W (16 * (g + 1) + j - 7))) (s0 (znth 0 W (16 * (g + 1) + j - 15)))) (znth 0 W (16 * (g + 1) + j - 16))).
  { rewrite EW. apply schedule_rec; lia. }
  rewrite <- Rec. split; [rewrite zlen_upd; lia|]. intros k Hk. rewrite znth_upd by lia. destruct (Z.eqb_spec k j) as [->|N].
  - replace (j <? j + 1) with true by lia. reflexivity.
  - rewrite M by lia. f_equal. destruct (Z.ltb_spec k j), (Z.ltb_spec k (j + 1)); lia.
Qed.
Lemma sched_ok W m n g w : W = schedule n m -> zlen m = 16 -> Forall w64 m -> 0 <= g -> 16 * (g + 2) <= zlen W -> slice W g w ->
  exists w', for_ 16 0 sched_step w = Ret w' /\ slice W (g + 1) w'.
Proof.
  intros EW Lm Fm G LW [L M].
  assert (H : forall k j w, j + Z.of_nat k = 16 -> 0 <= j -> mixed W g j w -> exists w', for_ k j sched_step w = Ret w' /\ mixed W g 16 w').
  { induction k as [|k IH]; intros j v Hj Hj0 Mx; [exists v; rewrite for_0; split; [reflexivity|]; now replace 16 with j by lia|].
    rewrite for_S. destruct (sched_step_ok W m n g j v EW Lm Fm G ltac:(lia) LW Mx) as (v' & E & Mx'). rewrite E, bind_ret. apply IH; auto; lia. }
  destruct (H 16%nat 0 w) as (w' & E & [L' M']); [lia|lia|split; [auto|]; intros k Hk; replace (k <? 0) with false by lia; auto|].
  exists w'. split; [exact E|]. split; [auto|]. intros k Hk. rewrite M' by auto. now replace (k <? 16) with true by lia.
Qed.
(** ** 80 rounds *)
Definition steps (W : list Z) (i n : nat) (a : list Z) : list Z := fold_left (sha_step W) (map Z.of_nat (seq i n)) a.
Lemma steps_S W i n a : steps W i (S n) a = steps W (S i) n (sha_step W a (Z.of_nat i)).
Proof. reflexivity. Qed.
Lemma steps_app W a b i v : steps W i (a + b) v = steps W (i + a) b (steps W i a v).
Proof. unfold steps. now rewrite seq_app, map_app, fold_left_app. Qed.
Lemma steps_0 W i a : steps W i 0 a = a.
Proof. reflexivity. Qed.
Lemma steps_def W n a : fold_left (sha_step W) (map Z.of_nat (seq 0 n)) a = steps W 0 n a.
Proof. reflexivity. Qed.
Global Opaque steps sha_step.
Lemma steps_len W n : forall i a, length a = 8%nat -> length (steps W i n a) = 8%nat.
Proof. induction n as [|n IH]; intros i a L; [now rewrite steps_0|]. rewrite steps_S. apply IH. now apply step_len. Qed.
Lemma steps_w W n : forall i a, length a = 8%nat -> Forall w64 a -> Forall w64 (steps W i n a).
Proof. induction n as [|n IH]; intros i a L Fa; [now rewrite steps_0|]. rewrite steps_S. apply IH; [now apply step_len|now apply step_w]. Qed.
Lemma slice_read W g w k : slice W g w -> 0 <= k < 16 -> zread w ((16 * g + k) mod 16) = Ret (znth 0 W (16 * g + k)).
Proof.
  intros [L M] Hk. replace ((16 * g + k) mod 16) with k by (symmetry; rewrite Z.add_comm, (Z.mul_comm 16), Z.mod_add by lia; apply Z.mod_small; lia).
  rewrite (zread_ok 0) by lia. now rewrite M.
Qed.
Opaque sched_step.
Lemma rounds15 W g w : slice W (Z.of_nat g) w -> (g < 5)%nat -> forall n k a, (k + n <= 15)%nat -> length a = 8%nat -> Forall w64 a ->
  for_ n (Z.of_nat (16 * g + k)) round (a, w) = Ret (steps W (16 * g + k) n a, w).
Proof.
  intros Sl G. induction n as [|n IH]; intros k a Hk L Fa; [now rewrite steps_0, for_0|]. rewrite for_S, steps_S. set (i := Z.of_nat (16 * g + k)).
  assert (Ei : i = 16 * Z.of_nat g + Z.of_nat k) by lia.
  rewrite (round_ok i W); [|lia|auto|auto|rewrite Ei; apply slice_read; auto; lia].
  assert (Em : i mod 16 = Z.of_nat k) by (rewrite Ei, Z.add_comm, (Z.mul_comm 16), Z.mod_add by lia; apply Z.mod_small; lia). rewrite Em. replace (Z.of_nat k =? 15) with false by lia. rewrite !bind_ret.
  replace (i + 1) with (Z.of_nat (16 * g + S k)) by lia. replace (S (16 * g + k)) with (16 * g + S k)%nat by lia. apply IH; [lia|now apply step_len|now apply step_w].
Qed.
Lemma rounds16 W m n g w a : W = schedule n m -> zlen m = 16 -> Forall w64 m -> 16 * (Z.of_nat g + 2) <= zlen W -> slice W (Z.of_nat g) w -> (g < 5)%nat -> length a = 8%nat -> Forall w64 a ->
  exists w', for_ 16 (Z.of_nat (16 * g)) round (a, w) = Ret (steps W (16 * g) 16 a, w') /\ slice W (Z.of_nat (S g)) w'.
Proof.
  intros EW Lm Fm LW Sl G L Fa. change 16%nat with (15 + 1)%nat at 1. rewrite for_app. pose proof (rounds15 W g w Sl G 15 0 a ltac:(lia) L Fa) as E. rewrite Nat.add_0_r in E. rewrite E, bind_ret.
  rewrite for_S. set (a' := steps W (16 * g) 15 a). set (i := Z.of_nat (16 * g) + Z.of_nat 15). assert (Ei : i = 16 * Z.of_nat g + 15) by lia.
  rewrite (round_ok i W); [|lia|now apply steps_len|now apply steps_w|rewrite Ei; apply slice_read; auto; lia].
  assert (Em : i mod 16 = 15) by (rewrite Ei, Z.add_comm, (Z.mul_comm 16), Z.mod_add by lia; reflexivity). rewrite Em. change (15 =? 15) with true. cbv iota.
  destruct (sched_ok W m n (Z.of_nat g) w EW Lm Fm ltac:(lia) LW Sl) as (w' & E' & Sl'). rewrite E', !bind_ret. exists w'. rewrite for_0. split.
  - rewrite (steps_app W 15 1 (16 * g) a : steps W (16 * g) 16 a = _), steps_S, steps_0. fold a'. now replace (Z.of_nat (16 * g + 15)) with i by lia.
  - now replace (Z.of_nat (S g)) with (Z.of_nat g + 1) by lia.
Qed.
Lemma rounds_groups W m n : W = schedule n m -> zlen m = 16 -> Forall w64 m -> 96 <= zlen W ->
  forall k g w a, (g + k <= 5)%nat -> slice W (Z.of_nat g) w -> length a = 8%nat -> Forall w64 a ->
  exists w', for_ (16 * k) (Z.of_nat (16 * g)) round (a, w) = Ret (steps W (16 * g) (16 * k) a, w').
Proof.
  intros EW Lm Fm LW. induction k as [|k IH]; intros g w a Hk Sl L Fa; [exists w; rewrite Nat.mul_0_r, steps_0; apply for_0|]. replace (16 * S k)%nat with (16 + 16 * k)%nat by lia. rewrite for_app, steps_app.
  destruct (rounds16 W m n g w a EW Lm Fm ltac:(lia) Sl ltac:(lia) L Fa) as (w' & E & Sl'). rewrite E, bind_ret.
  replace (Z.of_nat (16 * g) + Z.of_nat 16) with (Z.of_nat (16 * S g)) by lia. replace (16 * g + 16)%nat with (16 * S g)%nat by lia.
  apply IH; auto; [lia|now apply steps_len|now apply steps_w].
Qed.
Lemma steps_ext W W' n : forall i v, (forall t, 0 <= t < Z.of_nat (i + n) -> znth 0 W t = znth 0 W' t) -> steps W i n v = steps W' i n v.
Proof.
  induction n as [|n IH]; intros i v H; [now rewrite !steps_0|]. rewrite !steps_S. rewrite (IH (S i)) by (intros; apply H; lia). f_equal. Transparent sha_step. unfold sha_step. Opaque sha_step. now rewrite (H (Z.of_nat i)) by lia.
Qed.
Lemma rounds_ok m a : zlen m = 16 -> Forall w64 m -> length a = 8%nat -> Forall w64 a ->
  exists w', for_ 80 0 round (a, m) = Ret (fold_left (sha_step (schedule 64 m)) (map Z.of_nat (seq 0 80)) a, w').
Proof.
  intros Lm Fm L Fa. destruct (rounds_groups (schedule 80 m) m 80 eq_refl Lm Fm) with (k := 5%nat) (g := 0%nat) (w := m) (a := a) as (w' & E); auto.
  - rewrite schedule_len. lia.
  - split; [auto|]. intros k Hk. rewrite schedule_low by lia. reflexivity.
  - exists w'. change (Z.of_nat (16 * 0)) with 0 in E. change (16 * 5)%nat with 80%nat in E. change (16 * 0)%nat with 0%nat in E. rewrite E, steps_def.
    assert (Es : steps (schedule 80 m) 0 80 a = steps (schedule 64 m) 0 80 a); [|now rewrite Es]. apply steps_ext. intros t Ht. change 80%nat with (64 + 16)%nat. rewrite schedule_add. apply schedule_low. rewrite schedule_len. lia.
Qed.
