(** C110: the test program of guard_alloc. *)
From Verif Require Import Base M_guard P_guard M_guardtest.

(** where mmap puts a block of n bytes and a guard page: pages that were free, not page 0 *)
Definition placed (ps : Z) (v : vm) (n base : Z) : Prop :=
  base mod ps = 0 /\ 0 < base /\ base + (n / ps + 2) * ps <= 2 ^ 64 /\ forall q, base / ps <= q < base / ps + (n / ps + 2) -> v q = Unmapped.

(** every write up to a page behind the block is fatal, every write into it is not *)
Theorem c110_overrun k ps n v base v' p : 0 <= k < 64 -> ps = 2 ^ k -> 0 <= n -> n + 2 * ps < 2 ^ 64 -> placed ps v n base ->
  guard_alloc ps (Some base) true v n = (v', p) ->
  (forall i, 0 <= i < n -> child ps v' (p + i) = 0) /\ (forall i, n <= i < n + ps -> child ps v' (p + i) = SIGSEGV).
Proof.
  intros K PS N0 N1 (B0 & B1 & _ & _) A. assert (P : 0 < ps) by (subst ps; apply Z.pow_pos_nonneg; lia).
  destruct (alloc_ok k ps n v K PS N0 N1 base B0 B1) as (v2 & p2 & E & L & M & G & R & _). rewrite E in A. apply pair_equal_spec in A as [-> ->]. unfold child. split; intros i Hi.
  - rewrite R by lia. reflexivity.
  - apply Z.mod_divide in M as [b M]; [|lia]. replace (p + i) with ((i - n) + b * ps) by lia. rewrite Z.div_add by lia. rewrite (Z.div_small (i - n)) by lia. rewrite M, Z.div_mul in G by lia. rewrite Z.add_0_l, G. reflexivity.
Qed.
Print Assumptions c110_overrun.
(** a write before the block is not noticed, for no size *)
Theorem c110_underrun_refuted k ps n v base v' p : 0 <= k < 64 -> ps = 2 ^ k -> 0 <= n -> n + 2 * ps < 2 ^ 64 -> placed ps v n base ->
  guard_alloc ps (Some base) true v n = (v', p) -> base < p /\ forall i, base <= p + i < p -> child ps v' (p + i) = 0.
Proof.
  intros K PS N0 N1 (B0 & B1 & _ & _) A. assert (P : 0 < ps) by (subst ps; apply Z.pow_pos_nonneg; lia).
  destruct (alloc_ok k ps n v K PS N0 N1 base B0 B1) as (v2 & p2 & E & L & M & G & R & _). rewrite E in A. apply pair_equal_spec in A as [-> ->]. split.
  - unfold guard_alloc in E. cbv zeta in E. destruct (sizes k ps n K PS N0 N1) as [S1 _]. rewrite S1 in E. apply pair_equal_spec in E as [_ E]. pose proof (Z.div_mod n ps ltac:(lia)). pose proof (Z.mod_pos_bound n ps P). nia.
  - intros i Hi. unfold child. rewrite R by lia. reflexivity.
Qed.
Print Assumptions c110_underrun_refuted.
(** one guard_alloc and the test of a write *)
Lemma placed_ext ps v w n base : (forall q, base / ps <= q < base / ps + (n / ps + 2) -> v q = w q) -> placed ps v n base -> placed ps w n base.
Proof. intros H (A & B & C & U). repeat split; auto. intros q Hq. rewrite <- H by exact Hq. now apply U. Qed.
Lemma whole k ps v b1 b2 : 0 <= k -> ps = 2 ^ k -> ps * 5 + 80 < 2 ^ 64 -> placed ps v 80 b1 -> placed ps v (ps * 3 + 80) b2 ->
  (80 mod ps = 0 -> ~ b2 / ps <= b1 / ps < b2 / ps + ((ps * 3 + 80) / ps + 2)) ->
  exists v', guard_alloc_test ps v (Some b1) true Works (Some b2) true Works Works = Ret (Some v') /\
    forall q, v' q = if (80 mod ps =? 0) && ((q =? b1 / ps) || (q =? b2 / ps)) then ReadWrite else v q.
Proof.
  intros K0 PS Big P1 P2 D. assert (P : 0 < ps) by (subst ps; apply Z.pow_pos_nonneg; lia).
  assert (K : 0 <= k < 64). { split; [exact K0|]. destruct (Z_lt_dec k 64) as [H|H]; [exact H|]. pose proof (Z.pow_le_mono_r 2 64 k ltac:(lia) ltac:(lia)). lia. }
  unfold guard_alloc_test. destruct (guard_alloc ps (Some b1) true v 80) as [v1 p1] eqn:E1.
  destruct (c110_overrun k ps 80 v b1 v1 p1 K PS ltac:(lia) ltac:(lia) P1 E1) as [W1 _]. cbn [runtest]. rewrite W1 by lia. cbn [expect bind andthen]. change (0 =? 0) with true. cbn iota.
  destruct P1 as (A1 & A2 & A3 & A4). pose proof (free_gen k ps 80 v K PS ltac:(lia) ltac:(lia) b1 A1 ltac:(lia) A3 A4 v1 p1 E1) as F1.
  set (w := guard_free ps v1 p1 80) in *. assert (P2' : placed ps w (ps * 3 + 80) b2).
  { apply (placed_ext ps v); [|exact P2]. intros q Hq. rewrite F1. destruct (Z.eqb_spec (80 mod ps) 0) as [Z0|Z0]; [|reflexivity]. destruct (Z.eqb_spec q (b1 / ps)) as [->|]; [|reflexivity]. exfalso. now apply (D Z0). }
  destruct (guard_alloc ps (Some b2) true w (ps * 3 + 80)) as [v2 p2] eqn:E2.
  destruct (c110_overrun k ps (ps * 3 + 80) w b2 v2 p2 K PS ltac:(lia) ltac:(lia) P2' E2) as [W2 W3]. rewrite W2 by lia. rewrite W3 by lia. cbn [expect bind andthen]. change (0 =? 0) with true. change (SIGSEGV =? SIGSEGV) with true. cbn iota.
  eexists. split; [reflexivity|]. intros q. destruct P2' as (B1 & B2 & B3 & B4).
  rewrite (free_gen k ps (ps * 3 + 80) w K PS ltac:(lia) ltac:(lia) b2 B1 ltac:(lia) B3 B4 v2 p2 E2 q). rewrite F1.
  replace ((ps * 3 + 80) mod ps) with (80 mod ps) by (rewrite Z.add_comm, Z.mul_comm, Z.mod_add by lia; reflexivity).
  destruct (80 mod ps =? 0), (q =? b1 / ps), (q =? b2 / ps); reflexivity.
Qed.
Lemma mod80 k ps : ps = 2 ^ k -> 5 <= k -> (80 mod ps =? 0) = false.
Proof.
  intros -> H. apply Z.eqb_neq. intros Z0. apply Z.mod_divide in Z0 as [c C]; [|apply Z.pow_nonzero; lia].
  replace k with (5 + (k - 5)) in C by lia. rewrite Z.pow_add_r in C by lia. change (2 ^ 5) with 32 in C. lia.
Qed.
(** with a page size of 32 bytes or more, any place mmap chooses, and system calls that succeed, the
    program passes and leaves nothing mapped *)
Theorem c110_passes k ps v b1 b2 : 5 <= k -> ps = 2 ^ k -> ps * 5 + 80 < 2 ^ 64 -> placed ps v 80 b1 -> placed ps v (ps * 3 + 80) b2 ->
  exists v', guard_alloc_test ps v (Some b1) true Works (Some b2) true Works Works = Ret (Some v') /\ forall q, v' q = v q.
Proof.
  intros K PS Big P1 P2. pose proof (mod80 k ps PS K) as M. destruct (whole k ps v b1 b2 ltac:(lia) PS Big P1 P2) as (v' & E & H); [intros Z0; rewrite Z0 in M; discriminate|].
  exists v'. split; [exact E|]. intros q. rewrite H, M. reflexivity.
Qed.
Print Assumptions c110_passes.
(** with smaller pages it passes too, and loses two pages *)
Theorem c110_leak_unnoticed_refuted k ps v b1 b2 : 0 <= k < 5 -> ps = 2 ^ k -> placed ps v 80 b1 -> placed ps v (ps * 3 + 80) b2 -> ~ b2 / ps <= b1 / ps < b2 / ps + ((ps * 3 + 80) / ps + 2) ->
  exists v', guard_alloc_test ps v (Some b1) true Works (Some b2) true Works Works = Ret (Some v') /\ v' (b1 / ps) = ReadWrite /\ v' (b2 / ps) = ReadWrite /\ v (b1 / ps) = Unmapped /\ v (b2 / ps) = Unmapped.
Proof.
  intros K PS P1 P2 D. assert (B : ps <= 16 /\ 0 < ps /\ 80 mod ps = 0).
  { subst ps. assert (k = 0 \/ k = 1 \/ k = 2 \/ k = 3 \/ k = 4) as [->|[->|[->|[->| ->]]]] by lia; repeat split; discriminate. }
  destruct B as (B1 & B2 & B3). assert (Big : ps * 5 + 80 < 2 ^ 64) by lia. destruct (whole k ps v b1 b2 (proj1 K) PS Big P1 P2 (fun _ => D)) as (v' & E & H). exists v'. split; [exact E|]. rewrite !H, !Z.eqb_refl, orb_true_r, B3.
  destruct P1 as (_ & _ & _ & U1), P2 as (_ & _ & _ & U2). pose proof (Z.div_pos 80 ps ltac:(lia) B2). pose proof (Z.div_pos (ps * 3 + 80) ps ltac:(lia) B2).
  split; [reflexivity|]. split; [reflexivity|]. split; [apply U1; lia|apply U2; lia].
Qed.
Print Assumptions c110_leak_unnoticed_refuted.
(** without memory for the first block the child dies: the program is aborted *)
Theorem c110_no_memory ps v o1 b2 o2 s2 s3 : v (79 / ps) <> ReadWrite -> guard_alloc_test ps v None o1 Works b2 o2 s2 s3 = Ret None.
Proof. intros H. unfold guard_alloc_test, guard_alloc at 1. cbn [runtest]. rewrite Z.add_0_l. unfold child. destruct (v (79 / ps)); [reflexivity|congruence|reflexivity]. Qed.
Print Assumptions c110_no_memory.
(** the program passes only if each fork and each waitpid succeeds; a failed fork is not noticed: the status read then is not initialised *)
Theorem c110_passes_only ps v b1 o1 s1 b2 o2 s2 s3 v' : guard_alloc_test ps v b1 o1 s1 b2 o2 s2 s3 = Ret (Some v') -> s1 = Works /\ s2 = Works /\ s3 = Works.
Proof.
  unfold guard_alloc_test. destruct (guard_alloc ps b1 o1 v 80) as [w1 p1]. destruct (guard_alloc ps b2 o2 _ _) as [w2 p2]. unfold runtest. destruct s1; cbn [expect bind andthen]; try discriminate. destruct (_ =? 0); try discriminate. cbn [andthen bind].
  destruct s2; cbn [expect bind andthen]; try discriminate. destruct (_ =? 0); try discriminate. cbn [andthen bind]. destruct s3; cbn [expect bind andthen]; try discriminate. auto.
Qed.
Print Assumptions c110_passes_only.
Theorem c110_fork_fails_refuted ps v b1 o1 b2 o2 s2 s3 : guard_alloc_test ps v b1 o1 NoFork b2 o2 s2 s3 = UB.
Proof. unfold guard_alloc_test. destruct (guard_alloc ps b1 o1 v 80). reflexivity. Qed.
Print Assumptions c110_fork_fails_refuted.
(** 4096 byte pages; the second block reuses the place of the first *)
Example c110_ex : exists v', guard_alloc_test 4096 (fun _ => Unmapped) (Some 0x7f0000000000) true Works (Some 0x7f0000000000) true Works Works = Ret (Some v') /\ v' 0x7f0000000 = Unmapped.
Proof.
  destruct (c110_passes 12 4096 (fun _ => Unmapped) 0x7f0000000000 0x7f0000000000) as (v' & E & H); [lia|reflexivity|lia| | |exists v'; split; [exact E|now rewrite H]]; (split; [reflexivity|]; split; [lia|]; split; [vm_compute; discriminate|reflexivity]).
Qed.
