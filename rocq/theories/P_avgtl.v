(** Proofs about lists built by insertions only. *)
From Coq Require Import Permutation Sorted.
From Verif Require Import Base M_tlist S_tlist D_tlist P_tlist P_mrand S_treap D_treap M_tlcost P_treap S_avg P_avg D_avg.

Lemma way_snoc n w : way (Z.of_nat (S n)) w -> exists u i, w = u ++ [i] /\ way (Z.of_nat n) u /\ 0 <= i <= Z.of_nat n.
Proof.
  intros [L V]. destruct w as [|x w] using rev_ind; [rewrite zlen_nil in L; lia|]. clear IHw. exists w, x. revert L. zl. intros L. split; [reflexivity|]. assert (Lw : zlen w = Z.of_nat n) by lia.
  split; [split; [exact Lw|]|].
  - intros k Hk. specialize (V k ltac:(lia)). rewrite znth_app1 in V by lia. exact V.
  - specialize (V (Z.of_nat n) ltac:(lia)). rewrite znth_app2 in V by lia. rewrite Lw in V. replace (Z.of_nat n - Z.of_nat n) with 0 in V by lia. exact V.
Qed.
Lemma way_app n u i : way (Z.of_nat n) u -> 0 <= i <= Z.of_nat n -> way (Z.of_nat (S n)) (u ++ [i]).
Proof.
  intros [L V] Hi. split; [zl; lia|]. intros k Hk. destruct (Z.eq_dec k (Z.of_nat n)) as [->|].
  - rewrite znth_app2 by lia. rewrite L. replace (Z.of_nat n - Z.of_nat n) with 0 by lia. exact Hi.
  - rewrite znth_app1 by lia. apply V. lia.
Qed.
Lemma way_length n w : way (Z.of_nat n) w -> length w = n.
Proof. intros [L _]. unfold zlen in L. lia. Qed.
Lemma mid_inj (x : Z) : forall p q u v, ~ In x (p ++ q) -> ~ In x (u ++ v) -> p ++ x :: q = u ++ x :: v -> p = u /\ q = v.
Proof.
  induction p as [|a p IH]; intros q [|b u] v N1 N2 E; cbn [app] in *.
  - injection E as ->. auto.
  - injection E as -> E. exfalso. apply N2. now left.
  - injection E as -> E. exfalso. apply N1. now left.
  - injection E as -> E. destruct (IH q u v) as [-> ->]; auto; intros I; [apply N1|apply N2]; now right.
Qed.
Section W.
Variable seed : Z.
Hypothesis Hseed : 0 <= seed < 2 ^ 32.
Fixpoint ord (k : nat) (l : list Z) (w : list Z) : list Z :=
  match w with [] => l | i :: w => ord (S k) (ztake i l ++ prior_at k seed :: zdrop i l) w end.
Lemma ord_snoc : forall w k l i, ord k l (w ++ [i]) = let m := ord k l w in ztake i m ++ prior_at (k + length w) seed :: zdrop i m.
Proof. induction w as [|j w IH]; intros k l i; cbn [app ord length]; [now rewrite Nat.add_0_r|]. rewrite IH. cbv zeta. now replace (S k + length w)%nat with (k + S (length w))%nat by lia. Qed.
Definition ps (n : nat) : list Z := map (fun k => prior_at k seed) (seq 0 n).
Lemma ps_S n : ps (S n) = ps n ++ [prior_at n seed].
Proof. unfold ps. rewrite seq_S, map_app. reflexivity. Qed.
Lemma ps_len n : length (ps n) = n.
Proof. unfold ps. now rewrite map_length, seq_length. Qed.
Lemma ps_nodup n : Z.of_nat n <= 2 ^ 31 -> NoDup (ps n).
Proof.
  intros H. unfold ps. assert (X : forall s, incl s (seq 0 n) -> NoDup s -> NoDup (map (fun k => prior_at k seed) s)); [|apply X; [apply incl_refl|apply seq_NoDup]].
  induction s as [|i s IH]; intros I N; [constructor|]. inversion N as [|? ? N1 N2]; subst. cbn [map]. constructor; [|apply IH; [intros x Hx; apply I; now right|assumption]].
  intros J. apply in_map_iff in J as (j & E & Hj). pose proof (I i ltac:(now left)) as Hi. pose proof (I j ltac:(now right)) as Hj2. apply in_seq in Hi, Hj2. assert (i <> j) by congruence.
  destruct (Nat.lt_gt_cases i j) as [Hl _]. destruct (Hl H0) as [Y|Y]; [apply (prior_distinct i j seed Hseed Y); [lia|auto]|apply (prior_distinct j i seed Hseed Y); [lia|auto]].
Qed.
Lemma take_drop (i : Z) (l : list Z) : ztake i l ++ zdrop i l = l.
Proof. unfold ztake, zdrop. apply firstn_skipn. Qed.
Lemma ord_perm n : forall w, way (Z.of_nat n) w -> Permutation (ps n) (ord 0 [] w).
Proof.
  induction n as [|n IH]; intros w W. { apply way_length in W. destruct w; [constructor|discriminate]. }
  apply way_snoc in W as (u & i & -> & W & Hi). rewrite ord_snoc. cbv zeta. rewrite (way_length _ _ W), Nat.add_0_l. rewrite ps_S. apply perm_trans with (prior_at n seed :: ps n); [apply (Permutation_app_comm _ [_])|]. apply perm_trans with (prior_at n seed :: ord 0 [] u); [apply perm_skip; now apply IH|]. rewrite <- (take_drop i (ord 0 [] u)) at 1. apply Permutation_middle.
Qed.
Lemma ord_len n w : way (Z.of_nat n) w -> zlen (ord 0 [] w) = Z.of_nat n.
Proof. intros W. pose proof (Permutation_length (ord_perm n w W)) as L. rewrite ps_len in L. unfold zlen. lia. Qed.
Lemma ord_inj n : Z.of_nat n <= 2 ^ 31 -> forall w w', way (Z.of_nat n) w -> way (Z.of_nat n) w' -> ord 0 [] w = ord 0 [] w' -> w = w'.
Proof.
  induction n as [|n IH]; intros Hn w w' W W' E. { apply way_length in W, W'. destruct w, w'; try discriminate; reflexivity. }
  apply way_snoc in W as (u & i & -> & W & Hi). apply way_snoc in W' as (u' & i' & -> & W' & Hi'). rewrite !ord_snoc in E. cbv zeta in E. rewrite (way_length _ _ W), (way_length _ _ W'), Nat.add_0_l in E.
  pose proof (ps_nodup (S n) Hn) as N. rewrite ps_S in N. apply NoDup_remove_2 in N. rewrite app_nil_r in N.
  assert (X : forall u i, way (Z.of_nat n) u -> ~ In (prior_at n seed) (ztake i (ord 0 [] u) ++ zdrop i (ord 0 [] u))).
  { intros u0 i0 W0 I. rewrite take_drop in I. apply N. apply (Permutation_in _ (Permutation_sym (ord_perm n u0 W0)) I). }
  apply mid_inj in E as [E1 E2]; [|now apply X|now apply X]. assert (E : ord 0 [] u = ord 0 [] u') by (rewrite <- (take_drop i (ord 0 [] u)), <- (take_drop i' (ord 0 [] u')); congruence).
  rewrite (IH ltac:(lia) u u' W W' E). do 2 f_equal. apply (f_equal zlen) in E1. rewrite !zlen_ztake in E1; rewrite ?(ord_len n) by assumption; lia.
Qed.
Lemma ord_surj n : forall l, Permutation (ps n) l -> exists w, way (Z.of_nat n) w /\ ord 0 [] w = l.
Proof.
  induction n as [|n IH]; intros l HP. { apply Permutation_nil in HP. subst l. exists []. split; [split; [reflexivity|intros; lia]|reflexivity]. }
  rewrite ps_S in HP. assert (I : In (prior_at n seed) l) by (apply (Permutation_in _ HP), in_elt). apply in_split in I as (p & q & ->).
  apply Permutation_app_inv in HP. rewrite app_nil_r in HP. destruct (IH _ HP) as (w & W & E). exists (w ++ [zlen p]). pose proof (ord_len n w W) as L. rewrite E in L. revert L. zl. intros L. pose proof (zlen_nonneg p). pose proof (zlen_nonneg q).
  split; [apply way_app; [exact W|lia]|]. rewrite ord_snoc. cbv zeta. rewrite E, (way_length _ _ W), Nat.add_0_l. now rewrite ztake_app_exact, zdrop_app_exact.
Qed.
Lemma ord_all n ws : Z.of_nat n <= 2 ^ 31 -> all_ways (Z.of_nat n) ws -> all_orders (ps n) (map (ord 0 []) ws).
Proof.
  intros Hn [N V]. split.
  - assert (X : forall s, incl s ws -> NoDup s -> NoDup (map (ord 0 []) s)); [|apply X; [apply incl_refl|exact N]].
    induction s as [|w s IH]; intros I Ns; [constructor|]. inversion Ns as [|? ? N1 N2]; subst. cbn [map]. constructor; [|apply IH; [intros x Hx; apply I; now right|assumption]].
    intros J. apply in_map_iff in J as (w' & E & Hw'). apply N1. rewrite <- (ord_inj n Hn w' w); [exact Hw'| | |exact E]; apply V, I; [now right|now left].
  - intros l. rewrite in_map_iff. split; [intros (w & <- & Hw); apply ord_perm, V, Hw|]. intros HP. destruct (ord_surj n l HP) as (w & W & E). exists w. split; [exact E|]. now apply V.
Qed.

Context {A : Type}.
Implicit Types t : tlist A.
Lemma tgood_len t xs : tgood t xs -> zlen (inorder (troot t)) = zlen xs.
Proof. intros G. pose proof G as (E & _). rewrite inorder_len. unfold size. now rewrite E. Qed.
Lemma run_ord : forall (items : list (Z * A)) w k t xs, tgood t xs -> zlen xs = Z.of_nat k -> tseed t = seed_after k seed -> length w = length items -> Z.of_nat k + zlen items < 2 ^ 32 -> (forall j, 0 <= j < zlen w -> 0 <= znth 0 w j <= Z.of_nat k + j) ->
  exists rs t' xs', trun t (insertions items w) = Ret (rs, t') /\ tgood t' xs' /\ zlen xs' = zlen xs + zlen items /\ map prio (inorder (troot t')) = ord k (map prio (inorder (troot t))) w.
Proof.
  induction items as [|[a v] items IH]; intros [|i w] k t xs G L Sd Lw B V; try discriminate.
  - exists [], t, xs. cbn. rewrite Z.add_0_r. auto.
  - cbn [length] in Lw. injection Lw as Lw. change (insertions ((a, v) :: items) (i :: w)) with (TIns (Some a) i v :: insertions items w). rewrite zlen_cons in B. pose proof (zlen_nonneg items).
    pose proof (V 0 ltac:(rewrite zlen_cons; pose proof (zlen_nonneg w); lia)) as Hi. change (znth 0 (i :: w) 0) with i in Hi.
    assert (Tv : tvalid (tlist_getsize t) (TIns (Some a) i v)). { unfold tlist_getsize. rewrite (tgood_size _ _ G). cbn [tvalid]. lia. }
    destruct (exec_good t xs _ G Tv) as (r & t1 & xs1 & E & Sp & G1). cbn [trun]. rewrite E. cbn [bind]. cbn [texec] in E. destruct (tlist_insert (Some a) t i v) as [r1 t2] eqn:D. injection E as <- <-.
    destruct (insert_in t xs i a v r1 t2 G ltac:(lia) ltac:(lia) D) as [[-> ->]|(-> & S1 & p & q & E1 & Lp & E2)].
    { exfalso. unfold tlist_insert in D. rewrite (tgood_size _ _ G) in D. destruct (Z.ltb_spec (zlen xs) i); [lia|]. destruct (mrand (tseed t)). injection D. discriminate. }
    assert (L1 : zlen xs1 = zlen xs + 1). { rewrite <- (tgood_len _ _ G), <- (tgood_len _ _ G1), E1, E2. zl. lia. }
    destruct (IH w (S k) t2 xs1 G1) as (rs & t' & xs' & R & G' & L' & O); try lia.
    { rewrite S1, Sd. replace (S k) with (k + 1)%nat by lia. now rewrite seed_after_add. }
    { intros j Hj. specialize (V (j + 1) ltac:(rewrite zlen_cons; lia)). replace (znth 0 (i :: w) (j + 1)) with (znth 0 w j) in V; [lia|]. change (i :: w) with ([i] ++ w). rewrite znth_app2 by (unfold zlen; cbn; lia). f_equal. unfold zlen; cbn; lia. }
    rewrite R. cbn [bind]. eexists _, t', xs'. split; [reflexivity|]. split; [exact G'|]. split; [rewrite zlen_cons; lia|]. rewrite O. cbn [ord]. f_equal. rewrite E1, E2, !map_app. cbn [map].
    replace i with (zlen (map (@prio A) p)) by (now rewrite zlen_map). rewrite ztake_app_exact, zdrop_app_exact. unfold prio at 2. cbn [fst snd]. rewrite Sd. reflexivity.
Qed.
Lemma cost_ord (items : list (Z * A)) w i : zlen items <= 2 ^ 31 -> way (zlen items) w -> 0 <= i < zlen items ->
  built_cost seed items i w (1 + right_recs (Z.to_nat i) (ord 0 [] w) + left_recs (Z.to_nat i) (ord 0 [] w)).
Proof.
  intros Hn W Hi. assert (Wn : way (Z.of_nat (length items)) w) by exact W.
  destruct (run_ord items w 0 (mkTl seed Leaf) []) as (rs & t & xs & R & G & L & O); try reflexivity; try (apply init_good); try (apply way_length; exact Wn); try lia.
  { intros j Hj. destruct W as [Lw V]. apply V. lia. }
  exists rs, t. split; [exact R|]. split; [unfold tlist_getsize; rewrite (tgood_size _ _ G), L; reflexivity|]. change (zlen (@nil (Z * A))) with 0 in L. cbn [map inorder troot] in O.
  pose proof G as (Ee & C & H & B). pose proof (tgood_len _ _ G) as Li. destruct (inorder (troot t)) as [|y0 ys] eqn:Ey; [rewrite zlen_nil in Li; lia|]. rewrite <- Ey in *.
  destruct (zsplit1' y0 i (inorder (troot t))) as (p & q & E1 & E2); [lia|]. set (x := znth y0 (inorder (troot t)) i) in *.
  assert (N : NoDup (map prio (inorder (troot t)))) by (rewrite O; apply (Permutation_NoDup (ord_perm (length items) w Wn)); apply ps_nodup; unfold zlen in *; lia).
  assert (Sz : size (troot t) = zlen xs) by (unfold size; now rewrite Ee).
  pose proof (cost_ok (troot t) 0 p x q C H N ltac:(lia) ltac:(lia) E1) as K. rewrite Z.add_0_l, E2 in K.
  unfold tlist_get_cost. rewrite u32_id by lia. destruct (getitem_cost (troot t) i 0) as [it c]. cbn [snd] in *. rewrite K. rewrite <- O, E1, map_app. cbn [map]. 
  assert (Ep : Z.to_nat i = length (map (@prio A) p)) by (rewrite map_length; unfold zlen in E2; lia). unfold right_recs, left_recs. rewrite Ep.
  rewrite nth_middle. rewrite firstn_app, firstn_all, Nat.sub_diag. cbn [firstn]. rewrite app_nil_r.
  change (prio x :: map prio q) with ([prio x] ++ map prio q). rewrite app_assoc. rewrite skipn_app. rewrite skipn_all2 by (rewrite app_length; cbn; lia). rewrite app_length. cbn [length]. replace (S (length (map prio p)) - (length (map prio p) + 1))%nat with 0%nat by lia. reflexivity.
Qed.
End W.

(** ---------- the ways ---------- *)
Lemma nodup_app' {X} (a b : list X) : NoDup a -> NoDup b -> (forall x, In x a -> ~ In x b) -> NoDup (a ++ b).
Proof.
  induction a as [|x a IH]; intros Na Nb H; [exact Nb|]. inversion Na as [|? ? N1 N2]; subst. cbn [app]. constructor; [|apply IH; auto; intros y Hy; apply H; now right].
  rewrite in_app_iff. intros [I|I]; [contradiction|]. apply (H x); [now left|exact I].
Qed.
Lemma snoc_nodup (is : list Z) : NoDup is -> forall ws, NoDup ws -> NoDup (flat_map (fun w => map (fun i => w ++ [i]) is) ws).
Proof.
  intros Ni. induction ws as [|w ws IH]; intros N; [constructor|]. inversion N as [|? ? N1 N2]; subst. cbn [flat_map]. apply nodup_app'; [|now apply IH|].
  - apply FinFun.Injective_map_NoDup; [|exact Ni]. intros x y E. apply app_inj_tail in E. tauto.
  - intros l Hl I. apply in_map_iff in Hl as (i & <- & _). apply in_flat_map in I as (w' & Hw & I). apply in_map_iff in I as (j & E & _). apply app_inj_tail in E as [-> _]. contradiction.
Qed.
Lemma ways_fact n : exists ws, all_ways (Z.of_nat n) ws /\ length ws = fact n.
Proof.
  induction n as [|n (ws & [N V] & L)].
  - exists [[]]. split; [|reflexivity]. split; [constructor; [intros []|constructor]|]. intros w. split; [intros [<-|[]]; split; [reflexivity|intros; lia]|]. intros W. apply way_length in W. destruct w; [now left|discriminate].
  - exists (flat_map (fun w => map (fun i => w ++ [i]) (map Z.of_nat (seq 0 (S n)))) ws). split; [split|].
    + apply snoc_nodup; [|exact N]. apply FinFun.Injective_map_NoDup; [intros x y; apply Nat2Z.inj|apply seq_NoDup].
    + intros w. rewrite in_flat_map. split.
      * intros (u & Hu & I). apply in_map_iff in I as (i & <- & I). apply in_map_iff in I as (j & <- & I). apply in_seq in I. apply way_app; [now apply V|lia].
      * intros W. apply way_snoc in W as (u & i & -> & W & Hi). exists u. split; [now apply V|]. apply in_map_iff. exists i. split; [reflexivity|]. apply in_map_iff. exists (Z.to_nat i). split; [lia|apply in_seq; lia].
    + assert (X : forall us, length (flat_map (fun w : list Z => map (fun i => w ++ [i]) (map Z.of_nat (seq 0 (S n)))) us) = (length us * S n)%nat).
      { induction us as [|u us IH]; [reflexivity|]. cbn [flat_map]. rewrite app_length, IH, !map_length, seq_length. cbn [length]. lia. }
      rewrite X, L. cbn [fact]. lia.
Qed.
Lemma ways_number n ws : all_ways (Z.of_nat n) ws -> zlen ws = Z.of_nat (fact n).
Proof.
  intros [N V]. destruct (ways_fact n) as (ws' & [N' V'] & L). rewrite <- L. unfold zlen. f_equal. apply Permutation_length. apply NoDup_Permutation; [assumption|assumption|]. intros w. rewrite V, V'. reflexivity.
Qed.
(** ---------- the worst way ---------- *)
Lemma sort_exists : forall l : list Z, exists l', Permutation l l' /\ StronglySorted Z.le l'.
Proof.
  assert (I : forall x l, StronglySorted Z.le l -> exists l', Permutation (x :: l) l' /\ StronglySorted Z.le l').
  { intros x. induction l as [|y l IH]; intros H; [exists [x]; split; [apply Permutation_refl|constructor; constructor]|]. inversion H as [|? ? S F]; subst. destruct (Z_le_gt_dec x y) as [C|C].
    - exists (x :: y :: l). split; [apply Permutation_refl|]. constructor; [exact H|]. constructor; [exact C|]. eapply Forall_impl; [|exact F]. cbn. intros. lia.
    - destruct (IH S) as (l' & HP & S'). exists (y :: l'). split; [apply perm_trans with (y :: x :: l); [apply perm_swap|now apply perm_skip]|]. constructor; [exact S'|].
      eapply Permutation_Forall; [exact HP|]. constructor; [lia|exact F]. }
  induction l as [|x l (l' & HP & S)]; [exists []; split; constructor|]. destruct (I x l' S) as (l2 & HP2 & S2). exists l2. split; [|exact S2]. apply perm_trans with (x :: l'); [now apply perm_skip|exact HP2].
Qed.
Lemma records_sorted : forall l m, StronglySorted Z.le (m :: l) -> NoDup (m :: l) -> records m l = zlen l.
Proof.
  induction l as [|k l IH]; intros m H N; [reflexivity|]. inversion H as [|? ? S F]; subst. inversion N as [|? ? N1 N2]; subst. inversion F; subst. cbn [records]. rewrite zlen_cons.
  assert (m <> k) by (intros ->; apply N1; now left). destruct (Z.ltb_spec m k); [|lia]. rewrite IH by assumption. lia.
Qed.
