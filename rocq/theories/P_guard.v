(** Proofs about guard_alloc. *)
From Verif Require Import Base Bits M_guard.

Lemma pages_mul ps k : 0 < ps -> pages_of ps (k * ps) = k.
Proof. intros P. unfold pages_of. replace (k * ps + ps - 1) with (ps - 1 + k * ps) by lia. rewrite Z.div_add by lia. rewrite Z.div_small; lia. Qed.
Lemma pages_one ps : 0 < ps -> pages_of ps ps = 1.
Proof. intros P. rewrite <- (Z.mul_1_l ps) at 2. now apply pages_mul. Qed.
Section Guard.
Variables (k ps n : Z) (v : vm).
Hypothesis K : 0 <= k < 64.
Hypothesis PS : ps = 2 ^ k.
Hypothesis N0 : 0 <= n.
Hypothesis N1 : n + 2 * ps < 2 ^ 64.
Lemma ps_pos : 0 < ps.
Proof. subst ps. apply Z.pow_pos_nonneg; lia. Qed.
Lemma n_div : n = ps * (n / ps) + n mod ps /\ 0 <= n mod ps < ps /\ 0 <= n / ps.
Proof. pose proof ps_pos. split; [apply Z.div_mod; lia|]. split; [apply Z.mod_pos_bound; lia|apply Z.div_pos; lia]. Qed.
Lemma sizes : u64 (1 + n / ps) = 1 + n / ps /\ u64 (u64 (u64 (1 + n / ps) + 1) * ps) = (n / ps + 2) * ps.
Proof.
  pose proof ps_pos as P. destruct n_div as (E & R & D). assert (H : (n / ps + 2) * ps < 2 ^ 64) by nia. assert (n / ps + 2 < 2 ^ 64) by nia.
  rewrite (u64_id (1 + n / ps)) by lia. rewrite (u64_id (1 + n / ps + 1)) by lia. split; [reflexivity|]. rewrite u64_id by nia. lia.
Qed.
Lemma alloc_ok base : base mod ps = 0 -> 0 < base ->
  exists v' p, guard_alloc ps (Some base) true v n = (v', p) /\ base <= p /\ (p + n) mod ps = 0 /\ v' ((p + n) / ps) = NoAccess /\
    (forall a, base <= a < p + n -> v' (a / ps) = ReadWrite) /\ (forall q, ~ base / ps <= q <= (p + n) / ps -> v' q = v q).
Proof.
  intros B0 B1. pose proof ps_pos as P. destruct n_div as (E & R & D). destruct sizes as [S1 S2]. unfold guard_alloc. cbv zeta. rewrite S2, S1. rewrite pages_mul, pages_one by lia.
  apply Z.mod_divide in B0 as [b ->]; [|lia]. replace (b * ps + (1 + n / ps) * ps) with ((b + (1 + n / ps)) * ps) by lia. rewrite !Z.div_mul by lia. eexists _, _. split; [reflexivity|].
  replace ((b + (1 + n / ps)) * ps - n + n) with ((b + (1 + n / ps)) * ps) by lia. rewrite Z.mod_mul, Z.div_mul by lia. unfold set_pages. split; [nia|]. split; [reflexivity|]. split; [|split].
  - replace (_ && _) with true by lia. reflexivity.
  - intros a Ha. assert (b <= a / ps) by (apply Z.div_le_lower_bound; lia). assert (a / ps < b + (1 + n / ps)) by (apply Z.div_lt_upper_bound; lia).
    replace ((b + (1 + n / ps) <=? a / ps) && _) with false by lia. replace (_ && _) with true by lia. reflexivity.
  - intros q Hq. replace ((b + (1 + n / ps) <=? q) && _) with false by lia. replace (_ && _) with false by lia. reflexivity.
Qed.
Lemma alloc_fail_ok base : base mod ps = 0 -> (forall q, base / ps <= q < base / ps + (n / ps + 2) -> v q = Unmapped) ->
  exists v', guard_alloc ps (Some base) false v n = (v', 0) /\ forall q, v' q = v q.
Proof.
  intros B0 U. pose proof ps_pos as P. destruct sizes as [S1 S2]. unfold guard_alloc, munmap. cbv zeta. rewrite S2, B0. cbn [Z.eqb]. rewrite pages_mul by lia. eexists. split; [reflexivity|]. intros q. unfold set_pages.
  destruct ((base / ps <=? q) && (q <? base / ps + (n / ps + 2))) eqn:E; [|reflexivity]. symmetry. apply U. lia.
Qed.
Lemma off_ok : Z.land (u64 (- n)) (ps - 1) = (- n) mod ps.
Proof.
  rewrite PS. rewrite land_mask by lia. change (u64 (- n)) with ((- n) mod 2 ^ 64). replace 64 with (k + (64 - k)) by lia. rewrite Z.pow_add_r by lia.
  rewrite Z.rem_mul_r by (try apply Z.pow_nonzero; try apply Z.pow_pos_nonneg; lia). rewrite (Z.mul_comm (2 ^ k)), Z.mod_add by (apply Z.pow_nonzero; lia). apply Z.mod_mod. apply Z.pow_nonzero; lia.
  all: lia.
Qed.
Lemma free_gen base : base mod ps = 0 -> 0 <= base -> base + (n / ps + 2) * ps <= 2 ^ 64 -> (forall q, base / ps <= q < base / ps + (n / ps + 2) -> v q = Unmapped) ->
  forall v' p, guard_alloc ps (Some base) true v n = (v', p) ->
  forall q, guard_free ps v' p n q = if (n mod ps =? 0) && (q =? base / ps) then ReadWrite else v q.
Proof.
  intros B0 B1 Top U v' p A q. pose proof ps_pos as P. destruct n_div as (E & R & D). destruct sizes as [S1 S2]. unfold guard_alloc in A. cbv zeta in A. rewrite S2, S1 in A. rewrite pages_mul, pages_one in A by lia.
  unfold guard_free. cbv zeta. rewrite off_ok. apply Z.mod_divide in B0 as [b ->]; [|lia]. rewrite Z.div_mul in * by lia. replace (b * ps + (1 + n / ps) * ps) with ((b + (1 + n / ps)) * ps) in A by lia. rewrite Z.div_mul in A by lia.
  apply pair_equal_spec in A as [<- <-]. destruct (Z.eqb_spec (n mod ps) 0) as [Z0|Z0].
  - rewrite Z.mod_opp_l_z by lia. rewrite Z.sub_0_r, Z.add_0_r. rewrite (u64_id n) by nia. replace ((b + (1 + n / ps)) * ps - n) with ((b + 1) * ps) by lia.
    rewrite (u64_id ((b + 1) * ps)) by nia. rewrite u64_id by nia. replace (n + ps) with ((n / ps + 1) * ps) by lia. unfold munmap. rewrite Z.mod_mul, Z.div_mul, pages_mul by lia. cbn [Z.eqb]. unfold set_pages. cbn [andb].
    destruct (Z.eqb_spec q b) as [->|Nq].
    + replace ((b + 1 <=? b) && _) with false by lia. replace ((b + (1 + n / ps) <=? b) && _) with false by lia. replace (_ && _) with true by lia. reflexivity.
    + destruct ((b + 1 <=? q) && (q <? b + 1 + (n / ps + 1))) eqn:E1; [symmetry; apply U; lia|]. destruct ((b + (1 + n / ps) <=? q) && (q <? b + (1 + n / ps) + 1)) eqn:E2; [lia|]. replace (_ && _) with false by lia. reflexivity.
  - rewrite Z.mod_opp_l_nz by lia. replace ((b + (1 + n / ps)) * ps - n - (ps - n mod ps)) with (b * ps) by lia. rewrite (u64_id (b * ps)) by nia. replace (n + (ps - n mod ps)) with ((n / ps + 1) * ps) by lia.
    rewrite (u64_id ((n / ps + 1) * ps)) by nia. rewrite u64_id by nia. replace ((n / ps + 1) * ps + ps) with ((n / ps + 2) * ps) by lia. unfold munmap. rewrite Z.mod_mul, Z.div_mul, pages_mul by lia. cbn [Z.eqb andb]. unfold set_pages.
    destruct ((b <=? q) && (q <? b + (n / ps + 2))) eqn:E1; [symmetry; apply U; lia|]. replace ((b + (1 + n / ps) <=? q) && _) with false by lia. reflexivity.
Qed.
End Guard.
