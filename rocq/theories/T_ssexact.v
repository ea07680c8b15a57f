(** C61, C62: which block the stack allocator hands out. *)
From Verif Require Import Base M_ssalloc D_ssalloc S_ssalloc P_ssalloc S_ssexact P_ssexact.
Ltac Zify.zify_post_hook ::= Z.div_mod_to_equations.

(** every history of every pool size: each allocation returns the block behind the highest live
    one, or else the lowest free one among the first 8 * (M / 8), or else NULL *)
Theorem c61_exact M E ops : 0 < M < 2 ^ 64 -> 0 < E -> Forall (ptr_ok E) ops ->
  exists rs p live, run M E (ssa_init M) ops = Ret (rs, p) /\ answers M E [] ops rs live /\ avail p = M - zlen live.
Proof.
  intros HM HE Fa. destruct (run_answers M E HM HE ops _ [] (init_inv M E HM) Fa) as (rs & p & live & R & A & I). exists rs, p, live. split; [exact R|]. split; [exact A|apply I].
Qed.
Print Assumptions c61_exact.
(** this determines every result *)
Theorem c61_determined M E : 0 < M < 2 ^ 64 -> 0 < E -> forall ops live rs1 rs2 l1 l2, Forall (block M E) live -> answers M E live ops rs1 l1 -> answers M E live ops rs2 l2 -> rs1 = rs2 /\ l1 = l2.
Proof.
  intros HM HE. induction ops as [|o ops IH]; intros live rs1 rs2 l1 l2 B A1 A2; inversion A1; subst; inversion A2; subst; auto.
  - match goal with H1 : answer M E live size ?r1, H2 : answer M E live size ?r2 |- _ => pose proof H1 as A0; assert (r1 = r2) as Er by (eapply (answer_det M E HM HE live size); [rewrite Forall_forall in B; exact B|exact H1|exact H2]); subst end.
    assert (B' : Forall (block M E) (with_block live r0)).
    { inversion A0; subst; cbn [with_block]; auto; constructor; auto; [exists k|exists j]; (split; [lia|reflexivity]). }
    match goal with H1 : answers M E (with_block live r0) ops ?a l1, H2 : answers M E (with_block live r0) ops ?b l2 |- _ => destruct (IH _ a b l1 l2 B' H1 H2) as [-> ->] end. auto.
  - eapply (IH (remove Z.eq_dec d live)); [|eassumption|eassumption]. rewrite Forall_forall in *. intros x Hx. apply in_remove in Hx as [Hx _]. auto.
Qed.
Print Assumptions c61_determined.

(** C62 fails for every accepted size that is not a multiple of 8: a full pool, one block of the
    rest freed, and the next allocation fails *)
Theorem c62_all_refuted M E : 0 < M < 2 ^ 64 -> 0 < E -> accepted M = true -> M mod 8 <> 0 ->
  exists rs p, run M E (ssa_init M) (repeat (Alloc E) (Z.to_nat M) ++ [Free (8 * (M / 8) * E); Alloc E]) = Ret (rs ++ [None], p) /\
    rs = map (fun i => Some (Z.of_nat i * E)) (seq 0 (Z.to_nat M)) /\ avail p = 1.
Proof.
  intros HM HE Ac M8. apply accepted_even in Ac. assert (M2 : M mod 2 = 0) by (rewrite Zmod_even, Ac; reflexivity). assert (J : 8 * (M / 8) < M - 1) by lia.
  destruct (fill M E HM HE (Z.to_nat M) _ [] 0 (init_inv M E HM) ltac:(lia) ltac:(lia)) as (p1 & live1 & R1 & I1 & H1). { intros d. split; [intros []|]. intros (i & Hi & _). lia. }
  assert (J0 : 0 <= 8 * (M / 8)) by lia. set (j := 8 * (M / 8)) in *. assert (OK : ptr_ok E (Free (j * E))) by (left; apply Z.mul_nonneg_nonneg; lia). destruct (free_ok M E HM HE p1 live1 (j * E) I1 OK) as (p2 & R2 & I2 & _).
  destruct (alloc_answer M E HM HE p2 _ E I2) as (p3 & r & R3 & A3 & I3).
  assert (IN : forall i, 0 <= i < M -> i <> j -> In (i * E) (remove Z.eq_dec (j * E) live1)). { intros i Hi N. apply in_in_remove; [nia|]. apply H1. exists i. lia. }
  assert (r = None) as ->. { apply (answer_det M E HM HE (remove Z.eq_dec (j * E) live1) E); [intros d Hd; exact (live_in M E _ _ d I2 Hd)|exact A3|]. apply a_none; [lia|apply IN; lia|]. intros i Hi. apply IN; lia. }
  eexists _, p3. split; [|split; [reflexivity|]].
  - rewrite (run_app M E _ _ _ _ _ R1). cbn [run]. rewrite R2. cbn [bind]. rewrite R3. cbn [bind]. reflexivity.
  - cbn [with_block] in I3. destruct I3 as (_ & _ & _ & _ & _ & _ & _ & ->). assert (Hj : In (j * E) live1) by (apply H1; exists j; lia). rewrite (remove_len _ _ ltac:(apply I1) Hj).
    rewrite (full_len M E HM HE p1 live1 I1); [lia|]. intros k Hk. assert (In (k * E) live1) as X by (apply H1; exists k; lia). destruct I1 as (_ & _ & _ & _ & _ & _ & Hin & _). apply Hin in X as (k' & K1 & K2 & K3). apply Z.mul_reg_r in K2; [|lia]. now subst.
Qed.
Print Assumptions c62_all_refuted.
Example c61_exact_ex : run 8 16 (ssa_init 8) (repeat (Alloc 16) 8 ++ [Free 48; Free 16; Alloc 1; Alloc 1; Alloc 1; Free 112; Free 96; Alloc 3]) =
  Ret (map (fun i => Some (16 * Z.of_nat i)) (seq 0 8) ++ [Some 16; Some 48; None; Some 96], mkPool [127] 7 1).
Proof. vm_compute. reflexivity. Qed.
