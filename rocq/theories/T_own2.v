(** C76, C79 continued: what the results say when allocations fail *)
From Verif Require Import Base M_heap S_heap P_heap M_own D_own P_own M_ownmap D_ownmap D_ownmap2 P_ownmap P_ownmap2 P_own3.

(** ** C76: hashlist_add returns 0 exactly if the item was appended to its bucket; otherwise no bucket changes, and an allocation failed *)
Theorem c76_add_result A (xs : list (Z * A)) h n l0 h0 h1 l hash x : sane h -> 0 < n -> hl_new h n = Ret (Some l0, h0) -> hl_adds h0 l0 xs = Ret (h1, l) ->
  exists r h2 l' a b c, hl_add h1 l hash x = Ret (r, h2, l') /\ map bitems (lbkt l) = a ++ b :: c /\ zlen a = hash mod n /\
    (r = 0 /\ map bitems (lbkt l') = a ++ (b ++ [x]) :: c \/ r <> 0 /\ map bitems (lbkt l') = a ++ b :: c /\ In false (script h1)).
Proof.
  intros S N E R. destruct (hl_new_ok A h n _ (owns_start _ S)) as (r & h' & E' & Q). rewrite E in E'. injection E' as <- <-.
  destruct Q as [B Q]. assert (L0 : zlen (lbkt l0) = n) by (rewrite B; apply zlen_zrepeat; lia).
  assert (P0 : 0 < zlen (lbkt l0)) by lia. destruct (hl_adds_len _ _ _ (live h) _ _ _ P0 Q R) as [L O]. rewrite <- L0, <- L. apply (hl_add_view A h1 (live h)); [lia|exact O].
Qed.
Print Assumptions c76_add_result.
(* the table of two buckets: the second addition to bucket 1 succeeds, that to bucket 0 finds no memory for the items *)
Example c76_add_ex : exists h l, hl_new (mkHeap [] 1 [true; true; true; true; true; false]) 2 = Ret (Some l, h) /\
  exists h1 l1, hl_adds h l [(3, 30); (5, 50)] = Ret (h1, l1) /\ map bitems (lbkt l1) = [[]; [30; 50]] /\
  exists h2 l2, hl_add h1 l1 4 40 = Ret (1, h2, l2) /\ map bitems (lbkt l2) = [[]; [30; 50]].
Proof. do 2 eexists. split; [reflexivity|]. do 2 eexists. split; [reflexivity|]. split; [reflexivity|]. do 2 eexists. split; reflexivity. Qed.

(** ** C79: keys and values stay in step whichever allocations fail: at any time the map shows a list of pairs, and
    each operation did to it what it should or, an insertion without memory, nothing *)
Theorem c79_history h tgi ops : sane h ->
  (forall p o q h1 b1, ops = p ++ o :: q -> bruns h (bm_init tgi) p = Ret (h1, b1) -> in_map (zlen (stored_keys b1)) o) ->
  exists h' b l, bruns h (bm_init tgi) ops = Ret (h', b) /\ shows b l /\ vsteps [] ops l.
Proof.
  intros S M. destruct (bruns_view ops h (live h) [] (bm_init tgi) []) as (h' & b & l & E & _ & _ & V & R); auto.
  - destruct tgi; apply (owns_start _ S).
  - destruct tgi; cbn; auto. repeat split; constructor.
  - destruct tgi; split; reflexivity.
  - exists h', b, l. auto.
Qed.
(** the result of an insertion is its position if it took place; -1 says that it did not, and that an allocation failed *)
Theorem c79_nocheck_result h tgi ops h1 b l k v a c : sane h ->
  (forall p o q h1 b1, ops = p ++ o :: q -> bruns h (bm_init tgi) p = Ret (h1, b1) -> in_map (zlen (stored_keys b1)) o) ->
  bruns h (bm_init tgi) ops = Ret (h1, b) -> shows b l -> l = a ++ c ->
  exists r h2 b2, bm_insert_nocheck h1 b (zlen a) k v = Ret (r, h2, b2) /\
    (r = zlen a /\ shows b2 (a ++ (k, v) :: c) \/ r = -1 /\ shows b2 l /\ In false (script h1)).
Proof.
  intros S M E V L. destruct (bruns_view ops h (live h) [] (bm_init tgi) []) as (h' & b' & l' & E' & O & I & _ & _); auto.
  - destruct tgi; apply (owns_start _ S).
  - destruct tgi; cbn; auto. repeat split; constructor.
  - destruct tgi; split; reflexivity.
  - rewrite E in E'. injection E' as <- <-. destruct V as [K V]. assert (Lk : zlen (stored_keys b) = zlen l) by (rewrite K; unfold zlen; now rewrite map_length). pose proof (zlen_nonneg a) as Pa.
    destruct (nocheck_view h1 (live h) [] b (zlen a) k v O I) as (r & h2 & b2 & E2 & _ & _ & [(-> & K2 & V2)|(-> & K2 & V2 & F)]). { rewrite Lk, L. zl. zpos. lia. }
    + exists (zlen a), h2, b2. split; [exact E2|]. left. split; [reflexivity|]. split; [rewrite K2, K, L|rewrite V2, V, L]; rewrite ztake_map, zdrop_map, ztake_app_exact, zdrop_app_exact, map_app; reflexivity.
    + exists (-1), h2, b2. split; [exact E2|]. right. split; [reflexivity|]. split; [split; congruence|exact F].
Qed.
Print Assumptions c79_history.
Print Assumptions c79_nocheck_result.
(* a map with tgilist; a map with tglist where an insertion first succeeds, then gets room for the key but not for the value *)
Example c79_history_ex : exists h b, bruns (mkHeap [] 1 []) (bm_init true) [BNocheck 0 1 10; BNocheck 1 2 20; BNocheck 0 3 30; BInsert (Some 1) 0 5 50; BDelete 2; BSet 0 33] = Ret (h, b) /\ shows b [(3, 33); (1, 50)] /\
  exists h1 b1 h2 b2, bruns (mkHeap [] 1 [true; true; true; true; true; false]) (bm_init false) [BNocheck 0 1 1; BNocheck 0 2 2; BNocheck 0 3 3; BNocheck 0 4 4] = Ret (h1, b1) /\
    bm_insert_nocheck h1 b1 0 9 9 = Ret (0, h2, b2) /\ shows b1 [(4, 4); (3, 3); (2, 2); (1, 1)] /\
  exists h3 b3, bm_insert_nocheck (mkHeap (live h1) (nxt h1) [true; false]) b1 0 9 9 = Ret (-1, h3, b3) /\ shows b3 [(4, 4); (3, 3); (2, 2); (1, 1)].
Proof. do 2 eexists. split; [reflexivity|]. split; [split; reflexivity|]. do 4 eexists. split; [reflexivity|]. split; [reflexivity|]. split; [split; reflexivity|]. do 2 eexists. split; [reflexivity|]. split; reflexivity. Qed.
