(** C65: guard_alloc. *)
From Verif Require Import Base M_guard P_guard.

(** C65: the block [p, p + n) lies in the new mapping and ends at its inaccessible last page; no
    other page changes *)
Theorem c65_alloc k ps n v base : 0 <= k < 64 -> ps = 2 ^ k -> 0 <= n -> n + 2 * ps < 2 ^ 64 -> base mod ps = 0 -> 0 < base ->
  exists v' p, guard_alloc ps (Some base) true v n = (v', p) /\ base <= p /\ (p + n) mod ps = 0 /\ v' ((p + n) / ps) = NoAccess /\
    (forall a, base <= a < p + n -> v' (a / ps) = ReadWrite) /\ (forall q, ~ base / ps <= q <= (p + n) / ps -> v' q = v q).
Proof. intros K PS N0 N1. exact (alloc_ok k ps n v K PS N0 N1 base). Qed.
(** C65: on failure of mmap or mprotect the result is NULL and nothing stays mapped *)
Theorem c65_alloc_fail k ps n v base : 0 <= k < 64 -> ps = 2 ^ k -> 0 <= n -> n + 2 * ps < 2 ^ 64 -> base mod ps = 0 ->
  (forall q, base / ps <= q < base / ps + (n / ps + 2) -> v q = Unmapped) ->
  guard_alloc ps None true v n = (v, 0) /\ exists v', guard_alloc ps (Some base) false v n = (v', 0) /\ forall q, v' q = v q.
Proof. intros K PS N0 N1 B U. split; [reflexivity|]. exact (alloc_fail_ok k ps n v K PS N0 N1 base B U). Qed.
(** C65, missing: sizes that are a multiple of the page size.  For all others guard_free undoes
    guard_alloc *)
Theorem c65_free_partial k ps n v base : 0 <= k < 64 -> ps = 2 ^ k -> 0 <= n -> n + 2 * ps < 2 ^ 64 -> base mod ps = 0 -> 0 <= base ->
  base + (n / ps + 2) * ps <= 2 ^ 64 -> (forall q, base / ps <= q < base / ps + (n / ps + 2) -> v q = Unmapped) -> n mod ps <> 0 ->
  forall v' p, guard_alloc ps (Some base) true v n = (v', p) -> forall q, guard_free ps v' p n q = v q.
Proof. intros K PS N0 N1 B0 B1 Top U Nz v' p A q. rewrite (free_gen k ps n v K PS N0 N1 base B0 B1 Top U v' p A q). apply Z.eqb_neq in Nz. now rewrite Nz. Qed.
(** C65: for every multiple of the page size exactly the first page stays mapped *)
Theorem c65_free_refuted k ps n v base : 0 <= k < 64 -> ps = 2 ^ k -> 0 <= n -> n + 2 * ps < 2 ^ 64 -> base mod ps = 0 -> 0 <= base ->
  base + (n / ps + 2) * ps <= 2 ^ 64 -> (forall q, base / ps <= q < base / ps + (n / ps + 2) -> v q = Unmapped) -> n mod ps = 0 ->
  forall v' p, guard_alloc ps (Some base) true v n = (v', p) ->
  guard_free ps v' p n (base / ps) = ReadWrite /\ forall q, q <> base / ps -> guard_free ps v' p n q = v q.
Proof.
  intros K PS N0 N1 B0 B1 Top U Nz v' p A. pose proof (free_gen k ps n v K PS N0 N1 base B0 B1 Top U v' p A) as F. apply Z.eqb_eq in Nz. rewrite Nz in F. split.
  - rewrite F. now rewrite Z.eqb_refl.
  - intros q Hq. rewrite F. apply Z.eqb_neq in Hq. now rewrite Hq.
Qed.
Print Assumptions c65_alloc.
Print Assumptions c65_alloc_fail.
Print Assumptions c65_free_partial.
Print Assumptions c65_free_refuted.
Example c65_ex : let v : vm := fun _ => Unmapped in
  snd (guard_alloc 4096 (Some 40960) true v 5000) = 44152 /\ map (fst (guard_alloc 4096 (Some 40960) true v 5000)) [9; 10; 11; 12; 13] = [Unmapped; ReadWrite; ReadWrite; NoAccess; Unmapped] /\
  map (guard_free 4096 (fst (guard_alloc 4096 (Some 40960) true v 5000)) 44152 5000) [9; 10; 11; 12; 13] = repeat Unmapped 5 /\
  snd (guard_alloc 4096 (Some 40960) true v 4096) = 45056 /\
  map (guard_free 4096 (fst (guard_alloc 4096 (Some 40960) true v 4096)) 45056 4096) [9; 10; 11; 12; 13] = [Unmapped; ReadWrite; Unmapped; Unmapped; Unmapped].
Proof. repeat split. Qed.
