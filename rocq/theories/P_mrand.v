(** The period of the generator of tlist.c. *)
From Coq Require Import Zpow_facts.
From Verif Require Import Base M_tlist.

(** the seed after n calls *)
Fixpoint seed_after (n : nat) (s : Z) : Z := match n with O => s | S n => seed_after n (fst (mrand s)) end.
Lemma seed_after_add m n s : seed_after (m + n) s = seed_after n (seed_after m s).
Proof. revert s. induction m as [|m IH]; intros s; [reflexivity|]. cbn [Nat.add seed_after]. apply IH. Qed.

(** seed + 1 *)
Definition step (x : Z) : Z := x * 1103515245 + 12345.
Fixpoint steps (n : nat) (x : Z) : Z := match n with O => x | S n => step (steps n x) end.
Lemma steps_S n x : steps (S n) x = step (steps n x).
Proof. reflexivity. Qed.
Lemma steps_add m n x : steps (m + n) x = steps m (steps n x).
Proof. induction m as [|m IH]; [reflexivity|]. cbn [Nat.add steps]. now rewrite IH. Qed.
Lemma seed_steps n : forall s, 0 <= s < 2 ^ 32 -> seed_after n s = (steps n (s + 1) - 1) mod 2 ^ 32.
Proof.
  induction n as [|n IH]; intros s H.
  - cbn. change (Z.pow_pos 2 32) with 4294967296. rewrite Z.mod_small; lia.
  - replace (S n) with (n + 1)%nat by lia. rewrite seed_after_add, (Nat.add_comm n 1), steps_add, IH by lia. cbn [seed_after mrand fst steps]. unfold u32, step.
    set (x := steps n (s + 1)). change 4294967296 with (2 ^ 32). set (p := 2 ^ 32).
    replace (((x - 1) mod p + 1) * 1103515245 + 12345 - 1) with (((x - 1) mod p) * 1103515245 + (1103515245 + 12344)) by lia.
    rewrite <- Zplus_mod_idemp_l, Zmult_mod_idemp_l, Zplus_mod_idemp_l. f_equal. lia.
Qed.

(** 2^k steps are x -> a x + c with a = 1 modulo 2^(k+2) and c an odd multiple of 2^k *)
Lemma steps_pow k : exists t o, forall x, steps (2 ^ k) x = (1 + 4 * 2 ^ Z.of_nat k * t) * x + 2 ^ Z.of_nat k * (2 * o + 1).
Proof.
  induction k as [|k (t & o & IH)].
  - exists 275878811, 6172. intros x. change (2 ^ Z.of_nat 0) with 1. change (2 ^ 0)%nat with 1%nat. cbn [steps]. unfold step. lia.
  - set (p := 2 ^ Z.of_nat k) in *. replace (2 ^ Z.of_nat (S k)) with (2 * p) by (rewrite Nat2Z.inj_succ, Z.pow_succ_r by lia; reflexivity).
    exists (t + 2 * p * t * t), (o + p * t * (2 * o + 1)). intros x. replace (2 ^ S k)%nat with (2 ^ k + 2 ^ k)%nat by (cbn; lia). rewrite steps_add, !IH. ring.
Qed.
(** modulo 2^(k+1), m times 2^k steps add an odd multiple of 2^k, m times *)
Lemma steps_mult k : exists o, forall m x, exists u, steps (m * 2 ^ k) x = x + Z.of_nat m * (2 ^ Z.of_nat k * (2 * o + 1)) + 2 * 2 ^ Z.of_nat k * u.
Proof.
  destruct (steps_pow k) as (t & o & H). exists o. induction m as [|m IH]; intros x; [exists 0; cbn; lia|].
  destruct (IH x) as (u & E). cbn [Nat.mul]. rewrite steps_add, E, H. set (p := 2 ^ Z.of_nat k). set (y := x + Z.of_nat m * (p * (2 * o + 1)) + 2 * p * u).
  exists (2 * t * y + u). rewrite Nat2Z.inj_succ. subst y. ring.
Qed.
Lemma odd_part n : (0 < n)%nat -> exists k m, n = ((2 * m + 1) * 2 ^ k)%nat.
Proof.
  induction n as [n IH] using (well_founded_induction lt_wf). intros H. destruct (Nat.Even_or_Odd n) as [[m E]|[m E]].
  - destruct (IH m) as (k & m' & ->); [lia|lia|]. exists (S k), m'. cbn [Nat.pow]. lia.
  - exists 0%nat, m. cbn. lia.
Qed.
Lemma steps_differ b n x : 0 <= b -> (0 < n)%nat -> Z.of_nat n < 2 ^ b -> (steps n x - x) mod 2 ^ b <> 0.
Proof.
  intros B H L. destruct (odd_part n H) as (k & m & ->). destruct (steps_mult k) as (o & S). destruct (S (2 * m + 1)%nat x) as (u & ->).
  set (M := Z.of_nat m). replace (Z.of_nat (2 * m + 1)) with (2 * M + 1) by lia. set (p := 2 ^ Z.of_nat k).
  assert (P : 0 < p) by (unfold p; apply Z.pow_pos_nonneg; lia).
  replace (x + (2 * M + 1) * (p * (2 * o + 1)) + 2 * p * u - x) with (p * (2 * (2 * M * o + M + o + u) + 1)) by ring. set (v := 2 * M * o + M + o + u).
  assert (K : Z.of_nat k < b). { apply (Z.pow_lt_mono_r_iff 2); [lia|lia|]. eapply Z.le_lt_trans; [|exact L]. rewrite Nat2Z.inj_mul, Nat2Z.inj_pow. change (Z.of_nat 2) with 2. fold p. nia. }
  intros E. apply Z.mod_divide in E; [|lia]. destruct E as (w & E). replace (2 ^ b) with (p * (2 * 2 ^ (b - 1 - Z.of_nat k))) in E.
  - assert (F : 2 * v + 1 = 2 * (w * 2 ^ (b - 1 - Z.of_nat k))) by nia. lia.
  - unfold p. rewrite <- Z.pow_succ_r, <- Z.pow_add_r by lia. f_equal. lia.
Qed.
Lemma steps_full x : (steps (2 ^ 32) x - x) mod 2 ^ 32 = 0.
Proof.
  destruct (steps_pow 32) as (t & o & H). rewrite H. change (2 ^ Z.of_nat 32) with (2 ^ 32). set (p := 2 ^ 32). apply Z.mod_divide; [discriminate|]. exists (4 * t * x + 2 * o + 1). ring.
Qed.
Lemma seed_rng n s : 0 <= s < 2 ^ 32 -> 0 <= seed_after n s < 2 ^ 32.
Proof. intros H. rewrite seed_steps by auto. apply Z.mod_pos_bound. lia. Qed.
Lemma seed_back n s : 0 <= s < 2 ^ 32 -> (seed_after n s = s <-> (steps n (s + 1) - (s + 1)) mod 2 ^ 32 = 0).
Proof.
  intros H. rewrite seed_steps by auto. set (y := steps n (s + 1)). replace (y - (s + 1)) with ((y - 1) - s) by lia. split; intros E.
  - rewrite <- Zminus_mod_idemp_l, E, Z.sub_diag. reflexivity.
  - apply Z.mod_divide in E; [|discriminate]. destruct E as (q & E). replace (y - 1) with (s + q * 2 ^ 32) by lia. rewrite Z_mod_plus_full. apply Z.mod_small. lia.
Qed.
Lemma seed_period s : 0 <= s < 2 ^ 32 -> seed_after (2 ^ 32) s = s.
Proof. intros H. apply seed_back; [exact H|]. apply steps_full. Qed.
Lemma seed_distinct i j s : 0 <= s < 2 ^ 32 -> (i < j)%nat -> Z.of_nat (j - i) < 2 ^ 32 -> seed_after i s <> seed_after j s.
Proof.
  intros H L D E. pose proof (seed_rng i s H) as R. replace j with (i + (j - i))%nat in E by lia. rewrite seed_after_add in E. symmetry in E. apply seed_back in E; [|exact R]. revert E. apply steps_differ; [lia|lia|exact D].
Qed.

(** the priority drawn by call number n (from 0) *)
Definition prior_at (n : nat) (s : Z) : Z := snd (mrand (seed_after n s)).
Lemma prior_steps n s : 0 <= s < 2 ^ 32 -> prior_at n s = steps (S n) (s + 1) mod 2 ^ 31.
Proof.
  intros H. unfold prior_at, mrand. cbn [snd]. change 2147483647 with (Z.ones 31). rewrite Z.land_ones by lia.
  assert (E : fst (mrand (seed_after n s)) = (steps (S n) (s + 1) - 1) mod 2 ^ 32).
  { rewrite <- seed_steps by exact H. replace (S n) with (n + 1)%nat by lia. rewrite seed_after_add. reflexivity. }
  unfold mrand in E. cbn [fst] in E. rewrite E. unfold u32. change 4294967296 with (2 ^ 32). rewrite Zplus_mod_idemp_l. replace (steps (S n) (s + 1) - 1 + 1) with (steps (S n) (s + 1)) by lia.
  rewrite <- Znumtheory.Zmod_div_mod; [reflexivity|lia|lia|]. exists 2. reflexivity.
Qed.
Lemma prior_distinct i j s : 0 <= s < 2 ^ 32 -> (i < j)%nat -> Z.of_nat (j - i) < 2 ^ 31 -> prior_at i s <> prior_at j s.
Proof.
  intros H L D. rewrite !prior_steps by exact H. replace (S j) with ((j - i) + S i)%nat by lia. rewrite steps_add. set (x := steps (S i) (s + 1)). intros E.
  apply (steps_differ 31 (j - i) x); [lia|lia|exact D|]. rewrite Zminus_mod, <- E, Z.sub_diag. reflexivity.
Qed.
Lemma prior_rng n s : 0 <= prior_at n s < 2 ^ 31.
Proof. unfold prior_at, mrand. cbn [snd]. change 2147483647 with (Z.ones 31). rewrite Z.land_ones by lia. apply Z.mod_pos_bound. lia. Qed.

(** an injective numbering of N values by 0..N-1 reaches all of them *)
Lemma onto (f : nat -> Z) N : 0 <= N -> (forall i, 0 <= f i < N) -> (forall i j, (i < j)%nat -> Z.of_nat j < N -> f i <> f j) ->
  forall y, 0 <= y < N -> exists i, Z.of_nat i < N /\ f i = y.
Proof.
  intros HN R I y Hy. set (n := Z.to_nat N).
  assert (ND : NoDup (map f (seq 0 n))).
  { assert (G : forall m a, (a + m <= n)%nat -> NoDup (map f (seq a m))); [|apply G; lia].
    induction m as [|m IH]; intros a L; [constructor|]. cbn [seq map]. constructor; [|apply IH; lia]. intros X. apply in_map_iff in X. destruct X as (j & E & Hj). apply in_seq in Hj. apply (I a j); [lia|lia|now rewrite E]. }
  assert (In y (map f (seq 0 n))) as X.
  { apply (NoDup_length_incl (l := map f (seq 0 n)) (l' := map Z.of_nat (seq 0 n))).
    - exact ND.
    - rewrite !map_length. apply le_n.
    - intros z Hz. apply in_map_iff in Hz. destruct Hz as (i & <- & _). apply in_map_iff. exists (Z.to_nat (f i)). pose proof (R i). split; [lia|]. apply in_seq. lia.
    - apply in_map_iff. exists (Z.to_nat y). split; [lia|]. apply in_seq. lia. }
  apply in_map_iff in X. destruct X as (i & E & Hi). apply in_seq in Hi. exists i. split; [lia|exact E].
Qed.
