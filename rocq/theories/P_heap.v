From Verif Require Import Base M_heap S_heap.
From Coq Require Import Permutation.

Lemma drop_perm p l : In p l -> Permutation l (p :: drop p l).
Proof.
  induction l as [|q l IH]; intros H; [destruct H|]. cbn [drop]. destruct (Z.eqb_spec q p) as [->|N]; [reflexivity|].
  destruct H as [H|H]; [congruence|]. etransitivity; [apply perm_skip, IH, H|]. apply perm_swap.
Qed.
Lemma owns_perm h base a b : Permutation a b -> owns h base a -> owns h base b.
Proof. intros P [S Q]. split; auto. rewrite Q. now apply Permutation_app_tail. Qed.
Lemma owns_base h base a b : owns h (a ++ base) b -> owns h base (a ++ b).
Proof. intros [S Q]. split; auto. rewrite Q, !app_assoc. apply Permutation_app_tail, Permutation_app_comm. Qed.
Lemma owns_start h : sane h -> owns h (live h) [].
Proof. intros S. split; auto. Qed.
Lemma owns_end h h0 : owns h (live h0) [] -> balanced h0 h.
Proof. intros [S P]. split; auto. Qed.
Lemma owns_fresh h base own p : owns h base own -> In p own -> p <> 0.
Proof.
  intros [(N & F & _) P] I. rewrite Forall_forall in F. assert (J : In p (live h)) by (rewrite P; apply in_or_app; auto). specialize (F p J). lia.
Qed.
Lemma halloc_ok h base own : owns h base own ->
  exists q h', halloc h = (q, h') /\ (q = 0 /\ owns h' base own /\ (exists s, script h = false :: s) \/ q <> 0 /\ owns h' base (q :: own) /\ forall s, script h <> false :: s).
Proof.
  intros [(N & F & X) P]. unfold halloc.
  assert (Y : owns (mkHeap (nxt h :: live h) (nxt h + 1) (tl (script h))) base (nxt h :: own)).
  { split; [split; [|split]|]; cbn.
    - constructor; auto. intros I. rewrite Forall_forall in F. specialize (F _ I). lia.
    - constructor; [lia|]. eapply Forall_impl; [|exact F]. cbn. lia.
    - lia.
    - now apply perm_skip. }
  destruct (script h) as [|[|] s] eqn:E; cbn [tl] in *.
  - exists (nxt h), (mkHeap (nxt h :: live h) (nxt h + 1) []). split; [reflexivity|]. right. split; [lia|]. split; [exact Y|congruence].
  - exists (nxt h), (mkHeap (nxt h :: live h) (nxt h + 1) s). split; [reflexivity|]. right. split; [lia|]. split; [exact Y|congruence].
  - exists 0, (mkHeap (live h) (nxt h) s). split; [reflexivity|]. left. split; [lia|]. split; [|eauto]. split; [split; auto|exact P].
Qed.
Lemma hfree_ok h base own p : owns h base (p :: own) -> exists h', hfree h p = Ret h' /\ owns h' base own /\ script h' = script h.
Proof.
  intros O. assert (NZ : p <> 0) by (apply (owns_fresh _ _ _ _ O); now left). destruct O as [(N & F & X) P]. unfold hfree, NULL. replace (p =? 0) with false by lia.
  assert (I : In p (live h)) by (rewrite P; now left).
  replace (existsb (Z.eqb p) (live h)) with true by (symmetry; apply existsb_exists; exists p; split; [exact I|apply Z.eqb_refl]).
  eexists. split; [reflexivity|]. pose proof (drop_perm _ _ I) as D.
  split; [split; [split; [|split]|]|]; cbn; auto.
  - apply (Permutation_NoDup D) in N. now inversion N.
  - rewrite Forall_forall in *. intros q J. apply F. rewrite D. now right.
  - rewrite D in P. cbn in P. now apply Permutation_cons_inv in P.
Qed.
Lemma hfree_null h : hfree h 0 = Ret h.
Proof. reflexivity. Qed.
(** a block that is not allocated *)
Lemma hfree_ub h p : p <> 0 -> ~ In p (live h) -> hfree h p = UB.
Proof.
  intros N I. unfold hfree, NULL. replace (p =? 0) with false by lia. destruct (existsb (Z.eqb p) (live h)) eqn:E; [|reflexivity].
  apply existsb_exists in E as (q & J & Q). apply Z.eqb_eq in Q. subst. contradiction.
Qed.
Lemma hrealloc_null h : hrealloc h 0 = Ret (halloc h).
Proof. reflexivity. Qed.
Lemma hrealloc_ok h base own p : owns h base (p :: own) ->
  exists q h', hrealloc h p = Ret (q, h') /\ (q = 0 /\ owns h' base (p :: own) /\ (exists s, script h = false :: s) \/ q <> 0 /\ owns h' base (q :: own) /\ forall s, script h <> false :: s).
Proof.
  intros O. assert (NZ : p <> 0) by (apply (owns_fresh _ _ _ _ O); now left). unfold hrealloc. unfold NULL at 1. replace (p =? 0) with false by lia.
  assert (I : In p (live h)) by (destruct O as [_ P]; rewrite P; now left).
  replace (existsb (Z.eqb p) (live h)) with true by (symmetry; apply existsb_exists; exists p; split; [exact I|apply Z.eqb_refl]).
  destruct (halloc_ok _ _ _ O) as (q & h' & -> & [(-> & O' & E)|(Q & O' & E)]).
  - exists 0, h'. split; [reflexivity|]. left. auto.
  - unfold NULL. replace (q =? 0) with false by lia. destruct (hfree_ok h' base (q :: own) p) as (h2 & -> & O2 & _). { eapply owns_perm; [|exact O']. apply perm_swap. }
    exists q, h2. split; [reflexivity|]. right. auto.
Qed.
(** two lists with the same elements *)
Ltac perm := apply (Permutation_count_occ Z.eq_dec); intros ?; rewrite ?count_occ_app; cbn [app count_occ]; rewrite ?count_occ_app; cbn [app count_occ]; repeat destruct (Z.eq_dec _ _); lia.
