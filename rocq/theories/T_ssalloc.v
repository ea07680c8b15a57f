(** C61, C62: the single-size stack allocator. *)
From Verif Require Import Base M_ssalloc D_ssalloc S_ssalloc P_ssalloc.

(** C61: every history from ssa_init, for a pool of a multiple of 8 elements.  Results obey the
    specification: a new block is aligned, inside the pool and not live; an allocation of at
    most E bytes fails only if the pool is full.  Freeing a pointer that is not live leaves the
    pool unchanged. *)
Theorem c61_histories M E ops : 0 < M < 2 ^ 64 -> M mod 8 = 0 -> 0 < E -> Forall (ptr_ok E) ops ->
  exists rs p live, run M E (ssa_init M) ops = Ret (rs, p) /\ obeys false M E [] ops rs live /\
    NoDup live /\ Forall (block M E) live /\ avail p = M - zlen live /\
    (forall d, ptr_ok E (Free d) -> ~ In d live -> ssa_free M E p d = Ret p).
Proof. intros HM M8 HE Fa. exact (run_ok M E HM HE false ops (fun _ => M8) Fa). Qed.
Print Assumptions c61_histories.
Example c61_ex : run 8 16 (ssa_init 8) [Alloc 16; Alloc 3; Alloc 17; Free 0; Free 5; Free 160; Alloc 1; Free 0; Alloc 1] =
  Ret ([Some 0; Some 16; None; Some 32; Some 48], mkPool [14] 4 5).
Proof. vm_compute. reflexivity. Qed.
Example c61_ex_full : run 8 4 (ssa_init 8) [Alloc 1; Alloc 1; Alloc 1; Alloc 1; Alloc 1; Alloc 1; Alloc 1; Alloc 1; Alloc 1; Free 8; Alloc 4; Alloc 4] =
  Ret ([Some 0; Some 4; Some 8; Some 12; Some 16; Some 20; Some 24; Some 28; None; Some 8; None], mkPool [255] 8 0).
Proof. vm_compute. reflexivity. Qed.
(** C61 fails for a pointer two elements before the pool: ssa_free has undefined behaviour
    instead of ignoring it *)
Theorem c61_free_before_pool_refuted : exists M E d, 0 < M < 2 ^ 64 /\ M mod 8 = 0 /\ 0 < E /\ ssa_free M E (ssa_init M) d = UB.
Proof. exists 8, 16, (-32). repeat split. Qed.
Print Assumptions c61_free_before_pool_refuted.

(** C62: the preprocessor check accepts exactly the even sizes *)
Theorem c62_check_accepts_even M : accepted M = true <-> Z.even M = true.
Proof. exact (accepted_even M). Qed.
(** C62 fails: 12 elements are accepted, one of them is free, but the allocation fails *)
Theorem c62_refuted : exists M E ops rs p, accepted M = true /\ 0 < E /\ run M E (ssa_init M) ops = Ret (rs ++ [None], p) /\
  avail p = 1 /\ ops = repeat (Alloc E) 12 ++ [Free (10 * E); Alloc E].
Proof. exists 12, 4, (repeat (Alloc 4) 12 ++ [Free 40; Alloc 4]), [Some 0; Some 4; Some 8; Some 12; Some 16; Some 20; Some 24; Some 28; Some 32; Some 36; Some 40; Some 44], (mkPool [255; 11] 12 1). repeat split; vm_compute; reflexivity. Qed.
(** C62: for every pool size the blocks handed out are still distinct and inside the pool *)
Theorem c62_safe_partial M E ops : 0 < M < 2 ^ 64 -> 0 < E -> Forall (ptr_ok E) ops ->
  exists rs p live, run M E (ssa_init M) ops = Ret (rs, p) /\ obeys true M E [] ops rs live /\
    NoDup live /\ Forall (block M E) live /\ avail p = M - zlen live /\
    (forall d, ptr_ok E (Free d) -> ~ In d live -> ssa_free M E p d = Ret p).
Proof. intros HM HE Fa. apply (run_ok M E HM HE true ops); [discriminate|exact Fa]. Qed.
Print Assumptions c62_check_accepts_even.
Print Assumptions c62_refuted.
Print Assumptions c62_safe_partial.
Example c62_ex : accepted 12 = true /\ accepted 7 = false /\ accepted 1024 = true.
Proof. repeat split. Qed.
