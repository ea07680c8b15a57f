(** C77, C80: exactly what is left behind by stringptrlist_add_strdup and stringptr_replace, for every
    pattern of answers of the allocator. *)
From Verif Require Import Base M_heap S_heap P_heap M_own D_own P_own P_own2 S_ownexact P_ownexact.
From Coq Require Import Permutation.

(** every string copied while the list could not grow is left behind after freeall, and nothing else *)
Theorem c77_add_strdup_exact h bi ns : sane h -> 0 < bi -> granted (script h) = true ->
  let fs := fates (length ns) bi 0 (tl (script h)) in
  exists l h1 h2 l2 h3 leak, sb_new h bi = (Some l, h1) /\ spl_adds h1 l ns = Ret (map is_stored fs, h2, l2) /\
    map snd (hits l2) = map snd (filter (fun x => is_stored (fst x)) (combine fs ns)) /\
    spl_freeall h2 l2 = Ret h3 /\ sane h3 /\ Permutation (live h3) (leak ++ live h) /\ zlen leak = zlen (filter is_lost fs).
Proof.
  intros Sa B G fs. assert (O0 := owns_start _ Sa). assert (N := nxt_pos _ _ _ O0). destruct (sb_new_ok (Z * Z) h bi _ _ O0) as (r & h1 & E & R).
  unfold sb_new in E. destruct (halloc h) as [p h1'] eqn:A. destruct (halloc_script _ _ _ N A) as [S1 Q1]. rewrite G in Q1. cbn [negb] in Q1. unfold NULL in *. rewrite Q1 in E. injection E as <- <-. destruct R as (_ & _ & _ & _ & R).
  set (l := mkHsb p 0 0 bi []) in *.
  destruct (adds_fates ns h1' _ _ l R B ltac:(cbn; lia)) as (h2 & l2 & ps & leak & E2 & NZ & I2 & LP & LL & O2). cbn [hblk hcapa hits l] in *. change (0 - zlen (@nil (Z * Z))) with 0 in *. rewrite S1 in *. fold fs in E2, I2, LP, LL. cbn [app] in I2.
  assert (LN : length ps = length (map snd (filter (fun x => is_stored (fst x)) (combine fs ns)))).
  { assert (X : forall (fs : list fate) (ns : list Z), length fs = length ns -> length (filter (fun x => is_stored (fst x)) (combine fs ns)) = length (filter is_stored fs)). { clear. induction fs as [|f fs IH]; intros [|n ns] L; cbn in *; try discriminate; auto. destruct (is_stored f); cbn; rewrite IH; auto. }
    assert (LF : length fs = length ns). { subst fs. clear. generalize (tl (script h)) 0. induction (length ns) as [|n IH]; intros s r; cbn; auto. destruct (granted s), (r =? 0), (granted (tl s)); cbn; auto. }
    rewrite map_length, X by exact LF. unfold zlen in LP. lia. }
  assert (O3 : owns h2 (live h) (concat (map (fun x => nn (fst x)) (hits l2)) ++ owned l2 ++ leak)).
  { rewrite I2, nns_all; [|exact NZ|lia]. rewrite app_nil_r in O2. eapply owns_perm; [|exact O2]. apply Permutation_app_head, Permutation_app_comm. }
  destruct (spl_freeall_ok _ _ _ _ O3) as (h3 & E3 & [S3 P3]). exists l, h1', h2, l2, h3, leak. unfold sb_new. rewrite A. unfold NULL. rewrite Q1. split; [reflexivity|]. split; [exact E2|].
  split. { rewrite I2. clear -LN. revert LN. generalize (map snd (filter (fun x => is_stored (fst x)) (combine fs ns))). induction ps as [|q ps IH]; intros [|m ms] LN; cbn in *; try discriminate; auto. f_equal. apply IH. lia. }
  auto.
Qed.
Print Assumptions c77_add_strdup_exact.
(** the result and the number of blocks left behind besides it *)
Theorem c80_replace_exact h n : sane h ->
  exists r h' leak, h_replace h n = Ret (r, h') /\ sane h' /\ Permutation (live h') ((if r =? 0 then [] else [r]) ++ leak ++ live h) /\
    let (got, s) := pieces n 0 false (tl (script h)) in
    if granted (script h) then
      if granted s then r <> 0 /\ zlen leak = (if got then 1 else 0) else r = 0 /\ zlen leak = (if got then 2 else 1)
    else r = 0 /\ leak = [].
Proof.
  intros Sa. assert (O0 := owns_start _ Sa). assert (N := nxt_pos _ _ _ O0). unfold h_replace, h_split, sb_new. destruct (halloc_ok _ _ _ O0) as (p & h1 & E1 & H1). rewrite E1. destruct (halloc_script _ _ _ N E1) as [S1 Q1]. unfold NULL. rewrite Q1.
  destruct (granted (script h)); cbn [negb bind] in *.
  - destruct H1 as [(D & _)|(D & O1 & _)]; [lia|]. set (l := mkHsb p 0 0 16 []).
    destruct (pieces_ok n h1 (live h) [] l) as (h2 & l2 & E2 & O2 & S2 & P2); [unfold owned, l; cbn [hself hbuf]; rewrite nn1 by exact D; exact O1|reflexivity|cbn; lia|]. cbn [hcapa hits l hbuf] in P2. change (0 - zlen (@nil (Z * Z))) with 0 in P2. cbn [Z.eqb negb] in P2. rewrite S1 in P2. rewrite P2, E2. cbn [bind]. rewrite app_nil_r in O2. cbn [hself l] in S2.
    destruct (halloc_ok _ _ _ O2) as (r & h3 & E3 & H3). destruct (halloc_script _ _ _ (nxt_pos _ _ _ O2) E3) as [S3 Q3]. rewrite E3, Q3. destruct (granted (script h2)); cbn [negb] in *.
    + destruct H3 as [(R & _)|(R & O3 & _)]; [lia|]. unfold owned in O3. rewrite S2, (nn1 p D) in O3. destruct (hfree_ok h3 (live h) (r :: nn (hbuf l2)) p) as (h4 & E4 & [S4 P4] & _). { eapply owns_perm; [|exact O3]. apply perm_swap. }
      rewrite S2, E4. cbn [bind]. exists r, h4, (nn (hbuf l2)). split; [reflexivity|]. split; [exact S4|]. rewrite Q3. split; [exact P4|]. split; [exact R|]. unfold nn. destruct (hbuf l2 =? 0); reflexivity.
    + destruct H3 as [(_ & [S4 P4] & _)|(R & _)]; [|lia]. exists 0, h3, (owned l2). split; [reflexivity|]. split; [exact S4|]. split; [exact P4|]. split; [reflexivity|]. unfold owned. rewrite S2, (nn1 p D). unfold nn. destruct (hbuf l2 =? 0); reflexivity.
  - destruct H1 as [(_ & [S2 P2] & _)|(D & _)]; [|lia]. exists 0, h1, []. split; [reflexivity|]. split; [exact S2|]. split; [exact P2|]. destruct (pieces n 0 false (tl (script h))). auto.
Qed.
Print Assumptions c80_replace_exact.
(** one piece is enough to lose the block for the items, if it is granted *)
Theorem c80_replace_leaks h n : sane h -> (0 < n)%nat -> granted (script h) = true -> granted (tl (script h)) = true ->
  exists r h' leak, h_replace h n = Ret (r, h') /\ Permutation (live h') ((if r =? 0 then [] else [r]) ++ leak ++ live h) /\ leak <> [].
Proof.
  intros Sa Hn G1 G2. destruct (c80_replace_exact h n Sa) as (r & h' & leak & E & _ & P & X). exists r, h', leak. split; [exact E|]. split; [exact P|]. rewrite G1 in X.
  assert (K : forall n room s, fst (pieces n room true s) = true). { clear. induction n as [|n IH]; intros room s; cbn; auto. destruct (room =? 0), (granted s); auto. }
  destruct n as [|n]; [lia|]. cbn [pieces Z.eqb] in X. rewrite G2 in X. pose proof (K n 15 (tl (tl (script h)))) as K1. destruct (pieces n 15 true (tl (tl (script h)))) as [got s]. cbn in K1. subst got. intros ->. destruct (granted s); destruct X as [_ X]; discriminate X.
Qed.
Print Assumptions c80_replace_leaks.
(* the list grows by 2: the third string finds no room, the fifth no memory for its copy *)
Example c77_exact_ex : fates 5 2 0 [true; true; true; true; false; true; true; false] = [Stored; Stored; Lost; Stored; NoCopy] /\
  (let (l, h1) := sb_new (mkHeap [] 1 [true; true; true; true; true; false; true; true; false]) 2 in
   match l with None => UB | Some l => let* (oks, h2, l2) := spl_adds h1 l [3; 4; 5; 6; 7] in let* h3 := spl_freeall h2 l2 in Ret (oks, map snd (hits l2), live h3) end) =
  Ret ([true; true; false; true; false], [3; 4; 6], [5]).
Proof. split; vm_compute; reflexivity. Qed.
Example c80_exact_ex : pieces 3 0 false [false; false; false; true] = (false, [true]) /\ (let* (r, h) := h_replace (mkHeap [7] 8 [true; false; false; false; true]) 3 in Ret (r, live h)) = Ret (9, [9; 7]).
Proof. split; vm_compute; reflexivity. Qed.
