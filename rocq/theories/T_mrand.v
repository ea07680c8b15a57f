(** C107: the random numbers of tlist. *)
From Verif Require Import Base M_tlist P_mrand.

(** C107: the seed does not repeat within 2^32 calls, then the sequence starts again *)
Theorem c107_no_repeat s i j : 0 <= s < 2 ^ 32 -> (i < j)%nat -> Z.of_nat (j - i) < 2 ^ 32 -> seed_after i s <> seed_after j s.
Proof. exact (seed_distinct i j s). Qed.
Print Assumptions c107_no_repeat.
Theorem c107_period s : 0 <= s < 2 ^ 32 -> seed_after (2 ^ 32) s = s.
Proof. exact (seed_period s). Qed.
Print Assumptions c107_period.
(** every seed is reached from every other one *)
Theorem c107_all_seeds s t : 0 <= s < 2 ^ 32 -> 0 <= t < 2 ^ 32 -> exists n, Z.of_nat n < 2 ^ 32 /\ seed_after n s = t.
Proof.
  intros H. apply (onto (fun n => seed_after n s)); [lia|intros i; now apply seed_rng|]. intros i j L D. apply seed_distinct; [exact H|exact L|lia].
Qed.
Print Assumptions c107_all_seeds.
(** any 2^31 priorities in a row are all different and each of 0..2^31-1 is among them *)
Theorem c107_priorities_differ s i j : 0 <= s < 2 ^ 32 -> (i < j)%nat -> Z.of_nat (j - i) < 2 ^ 31 -> prior_at i s <> prior_at j s.
Proof. exact (prior_distinct i j s). Qed.
Print Assumptions c107_priorities_differ.
Theorem c107_all_priorities s p : 0 <= s < 2 ^ 32 -> 0 <= p < 2 ^ 31 -> exists n, Z.of_nat n < 2 ^ 31 /\ prior_at n s = p.
Proof.
  intros H. apply (onto (fun n => prior_at n s)); [lia|intros i; apply prior_rng|]. intros i j L D. apply prior_distinct; [exact H|exact L|lia].
Qed.
Print Assumptions c107_all_priorities.
(** the low bit alternates: of two priorities in a row one is even *)
Theorem c107_low_bit s n : 0 <= s < 2 ^ 32 -> Z.even (prior_at (S n) s) = negb (Z.even (prior_at n s)).
Proof.
  intros H. rewrite !prior_steps by exact H. cbn [steps]. unfold step. set (x := steps n (s + 1) * 1103515245 + 12345).
  assert (E : forall y, Z.even (y mod 2 ^ 31) = Z.even y). { intros y. rewrite (Z_div_mod_eq_full y (2 ^ 31)) at 2. rewrite Z.even_add, Z.even_mul. change (Z.even (2 ^ 31)) with true. cbn [orb]. now destruct (Z.even (y mod 2 ^ 31)). }
  rewrite !E, Z.even_add, Z.even_mul. cbn. now destruct (Z.even x).
Qed.
Print Assumptions c107_low_bit.
Example c107_ex : seed_after 2 0 = 2524885222 /\ map (fun n => prior_at n 0) [0; 1; 2]%nat = [1103527590; 377401575; 662824084].
Proof. split; vm_compute; reflexivity. Qed.
(** an insertion that succeeds draws one number, any other draws none *)
Theorem c107_insert_draws A (al : option Z) (t : tlist A) idx v r t' : tlist_insert al t idx v = (r, t') ->
  r = 1 /\ tseed t' = seed_after 1 (tseed t) \/ r = 0 /\ t' = t.
Proof.
  unfold tlist_insert. destruct (_ <? idx); [intros [= <- <-]; auto|]. destruct al as [a|]; [|intros [= <- <-]; auto]. cbn [seed_after]. destruct (mrand (tseed t)) as [s p]. intros [= <- <-]. auto.
Qed.
Print Assumptions c107_insert_draws.
Example c107_insert_ex : let t := mkTl 0 (@Leaf Z) in
  match tlist_insert (Some 8) t 0 5 with (r, t') => (r, tseed t', troot t') end = (1, 1103527589, Node 8 1103527590 1 5 Leaf Leaf).
Proof. vm_compute. reflexivity. Qed.
