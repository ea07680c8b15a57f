(** Proofs about the calls made by insertions and deletions. *)
From Coq Require Import Permutation Sorted.
From Verif Require Import Base M_tlist S_tlist D_tlist P_tlist P_mrand S_treap D_treap M_tlcost P_treap S_avg P_avg D_avg P_avgtl M_tlcost2 D_avg2.

Section Sp.
Context {A : Type}.
Implicit Types t l r : tree A.
Fixpoint rl t : Z := match t with Leaf => 0 | Node _ _ _ _ _ r => 1 + rl r end.
Fixpoint ll t : Z := match t with Leaf => 0 | Node _ _ _ _ l _ => 1 + ll l end.
Lemma rl_nn t : 0 <= rl t.
Proof. induction t; cbn [rl]; lia. Qed.
Lemma ll_nn t : 0 <= ll t.
Proof. induction t; cbn [ll]; lia. Qed.
Lemma rl_upd t : rl (upd_cnt t) = rl t.
Proof. now destruct t. Qed.
Lemma ll_upd t : ll (upd_cnt t) = ll t.
Proof. now destruct t. Qed.
Lemma merge_calls_le : forall l r, 1 <= merge_calls l r <= 1 + rl l + ll r.
Proof.
  induction l as [|la lp lc lv l1 IH1 l2 IH2]; intros r; [destruct r; cbn [merge_calls rl ll]; [lia|pose proof (ll_nn r1); lia]|].
  induction r as [|ra rp rc rv r1 IHr1 r2 IHr2]; [cbn [merge_calls rl ll]; pose proof (rl_nn l2); lia|].
  cbn [merge_calls]. destruct (rp <? lp).
  - specialize (IH2 (Node ra rp rc rv r1 r2)). cbn [rl ll] in *. lia.
  - cbn [merge_calls] in IHr1. cbn [rl ll] in *. lia.
Qed.
Lemma merge_rl : forall l r, rl (merge l r) <= rl l + rl r.
Proof.
  induction l as [|la lp lc lv l1 IH1 l2 IH2]; intros r; [rewrite merge_eq; destruct r; rewrite ?rl_upd; cbn [rl]; lia|].
  induction r as [|ra rp rc rv r1 IHr1 r2 IHr2]; [rewrite merge_eq, rl_upd; cbn [rl]; lia|].
  rewrite merge_eq. destruct (rp <? lp); rewrite rl_upd.
  - specialize (IH2 (Node ra rp rc rv r1 r2)). cbn [rl] in *. lia.
  - pose proof (rl_nn l2). cbn [rl]. lia.
Qed.
Lemma split_spines : forall t key add, split_calls t key add = 1 + rl (fst (split t key add)) + ll (snd (split t key add)).
Proof.
  induction t as [|a p c v l IHl r IHr]; intros key add; [reflexivity|]. cbn [split_calls split]. destruct (key <=? _).
  - rewrite IHl. destruct (split l key add) as [x y]. cbn [fst snd]. rewrite ll_upd. cbn [ll]. lia.
  - rewrite IHr. destruct (split r key _) as [x y]. cbn [fst snd]. rewrite rl_upd. cbn [rl]. lia.
Qed.
Lemma insert_calls_le t a p v key t1 t2 : split t key 0 = (t1, t2) -> 3 + rl t1 + ll t2 <= insert_calls t (Node a p 1 v Leaf Leaf) key <= 5 + 3 * rl t1 + 2 * ll t2.
Proof.
  intros E. unfold insert_calls. pose proof (split_spines t key 0) as S. rewrite E in *. cbn [fst snd] in S. set (n := Node a p 1 v Leaf Leaf). pose proof (merge_calls_le t1 n). pose proof (merge_calls_le (merge t1 n) t2). pose proof (merge_rl t1 n).
  change (rl n) with 1 in *. change (ll n) with 1 in *. lia.
Qed.
(** ---------- spines and records ---------- *)
Lemma spine_parts a (p : Z) c v l r : heap_ordered (Node a p c v l r) -> NoDup (map prio (inorder (Node a p c v l r))) ->
  heap_ordered l /\ heap_ordered r /\ NoDup (map prio (inorder l)) /\ NoDup (map prio (inorder r)) /\ Forall (fun k => k < p) (map prio (inorder l)) /\ Forall (fun k => k < p) (map prio (inorder r)).
Proof.
  cbn [heap_ordered inorder]. intros (Bl & Br & Hl & Hr) N. destruct (nodup_parts prio _ _ _ N) as (Nl & Nr & Nx). apply Forall_app in Nx as [Nxl Nxr]. change (prio (a, (p, v))) with p in *.
  pose proof (Forall_lt _ _ (heap_bound _ _ Hl Bl) Nxl). pose proof (Forall_lt _ _ (heap_bound _ _ Hr Br) Nxr). auto 6.
Qed.
Lemma lt_le b (l : list Z) : Forall (fun k => k < b) l -> Forall (fun k => k <= b) l.
Proof. apply Forall_impl. intros; lia. Qed.
Lemma rl_records : forall t, heap_ordered t -> NoDup (map prio (inorder t)) -> Forall (fun k => 0 <= k) (map prio (inorder t)) -> rl t = records (-1) (rev (map prio (inorder t))).
Proof.
  induction t as [|a p c v l IHl r IHr]; intros H N F; [reflexivity|]. destruct (spine_parts _ _ _ _ _ _ H N) as (Hl & Hr & Nl & Nr & Ll & Lr). cbn [inorder] in *. rewrite map_app in *. cbn [map] in *. change (prio (a, (p, v))) with p in *.
  apply Forall_app in F as [Fl Fr]. inversion Fr; subst. rewrite rev_app_distr. cbn [rev]. rewrite <- app_assoc. cbn [app]. rewrite records_app; [|lia|now apply Forall_rev|now apply Forall_rev, lt_le]. rewrite <- IHr by assumption. cbn [rl]. lia.
Qed.
Lemma ll_records : forall t, heap_ordered t -> NoDup (map prio (inorder t)) -> Forall (fun k => 0 <= k) (map prio (inorder t)) -> ll t = records (-1) (map prio (inorder t)).
Proof.
  induction t as [|a p c v l IHl r IHr]; intros H N F; [reflexivity|]. destruct (spine_parts _ _ _ _ _ _ H N) as (Hl & Hr & Nl & Nr & Ll & Lr). cbn [inorder] in *. rewrite map_app in *. cbn [map] in *. change (prio (a, (p, v))) with p in *.
  apply Forall_app in F as [Fl Fr]. inversion Fr; subst. rewrite records_app; [|lia|assumption|now apply lt_le]. rewrite <- IHl by assumption. cbn [ll]. lia.
Qed.
Lemma records_nn : forall ks m, 0 <= records m ks.
Proof. induction ks as [|k ks IH]; intros m; cbn [records]; [lia|]. destruct (m <? k); [specialize (IH k)|specialize (IH m)]; lia. Qed.
Lemma records_mono : forall a b m, records m a <= records m (a ++ b).
Proof. induction a as [|k a IH]; intros b m; cbn [app records]; [apply records_nn|]. destruct (m <? k); [specialize (IH b k)|specialize (IH b m)]; lia. Qed.
Definition gap (p q : list (Z * (Z * A))) : Z := records (-1) (rev (map prio p)) + records (-1) (map prio q).
Lemma gap_left p q1 (x : Z * (Z * A)) q2 : gap p q1 <= gap p (q1 ++ x :: q2).
Proof. unfold gap. rewrite map_app. pose proof (records_mono (map prio q1) (map prio (x :: q2)) (-1)). lia. Qed.
Lemma gap_right p1 (x : Z * (Z * A)) p2 q : gap p2 q <= gap (p1 ++ x :: p2) q.
Proof. unfold gap. rewrite map_app. cbn [map]. rewrite rev_app_distr. cbn [rev]. rewrite <- app_assoc. pose proof (records_mono (rev (map prio p2)) ([prio x] ++ rev (map prio p1)) (-1)). lia. Qed.
Lemma merge_gap l r : heap_ordered l -> heap_ordered r -> NoDup (map prio (inorder l)) -> NoDup (map prio (inorder r)) -> Forall (fun k => 0 <= k) (map prio (inorder l)) -> Forall (fun k => 0 <= k) (map prio (inorder r)) ->
  merge_calls l r <= 1 + gap (inorder l) (inorder r).
Proof. intros. unfold gap. rewrite <- rl_records, <- ll_records by assumption. pose proof (merge_calls_le l r). lia. Qed.
Lemma cut_eq {B} : forall (l p : list B) (y : B) (r : list B) (x : B) (q : list B), l ++ y :: r = p ++ x :: q -> zlen l = zlen p -> l = p /\ y = x /\ r = q.
Proof. intros. now apply app_mid'. Qed.
Lemma cut_right {B} : forall (l p : list B) (y : B) (r : list B) (x : B) (q : list B), l ++ y :: r = p ++ x :: q -> zlen l < zlen p -> exists p1, p = l ++ y :: p1 /\ r = p1 ++ x :: q.
Proof.
  induction l as [|z l IH]; intros [|w p] y r x q E L; rewrite ?zlen_nil, ?zlen_cons in L; try (pose proof (zlen_nonneg l); lia); try lia; cbn [app] in E.
  - injection E as -> ->. exists p. auto.
  - injection E as -> E. destruct (IH p y r x q E ltac:(lia)) as (p1 & -> & ->). exists p1. auto.
Qed.
Lemma cut_left {B} : forall (l p : list B) (y : B) (r : list B) (x : B) (q : list B), l ++ y :: r = p ++ x :: q -> zlen p < zlen l -> exists q1, q = q1 ++ y :: r /\ l = p ++ x :: q1.
Proof.
  induction l as [|z l IH]; intros [|w p] y r x q E L; rewrite ?zlen_nil, ?zlen_cons in L; try (pose proof (zlen_nonneg p); lia); try lia; cbn [app] in E.
  - injection E as -> <-. exists l. auto.
  - injection E as -> E. destruct (IH p y r x q E ltac:(lia)) as (q1 & -> & ->). exists q1. auto.
Qed.
Lemma cost_nn : forall t i a, 0 <= snd (getitem_cost t i a).
Proof.
  induction t as [|x1 x2 x3 x4 l IHl r IHr]; intros i b; cbn [getitem_cost]; [cbn; lia|]. destruct (_ =? _); [cbn; lia|]. destruct (_ <? _); [specialize (IHr i (u32 (b + 1 + cnt l))); destruct (getitem_cost r _ _)|specialize (IHl i b); destruct (getitem_cost l _ _)]; cbn [snd] in *; lia.
Qed.
Lemma cost_pos t i a : t <> Leaf -> 1 <= snd (getitem_cost t i a).
Proof.
  destruct t as [|x1 x2 x3 x4 l r]; intros H; [congruence|]. cbn [getitem_cost]. destruct (_ =? _); [cbn; lia|]. destruct (_ <? _); [pose proof (cost_nn r i (u32 (a + 1 + cnt l))); destruct (getitem_cost r _ _)|pose proof (cost_nn l i a); destruct (getitem_cost l _ _)]; cbn [snd] in *; lia.
Qed.
Lemma remove_calls_le : forall t add p x q, cok t -> heap_ordered t -> NoDup (map prio (inorder t)) -> Forall (fun k => 0 <= k) (map prio (inorder t)) -> 0 <= add -> add + size t < 2 ^ 32 -> inorder t = p ++ x :: q ->
  remove_calls t (add + zlen p) add <= snd (getitem_cost t (add + zlen p) add) + 1 + gap p q.
Proof.
  induction t as [|a pr c v l IHl r IHr]; intros add p x q C H N F Ha Hs E; [now apply app_cons_not_nil in E|].
  destruct (spine_parts _ _ _ _ _ _ H N) as (Hl & Hr & Nl & Nr & Ll & Lr). rewrite size_node in Hs. cbn [cok inorder] in *. destruct C as (_ & Cl & Cr).
  pose proof (size_nn l). pose proof (size_nn r). pose proof (zlen_nonneg p). pose proof (inorder_len l) as Zl. pose proof (inorder_len r) as Zr. rewrite map_app in F. cbn [map] in F. apply Forall_app in F as [Fl Fr]. inversion Fr as [|? ? Fx Fr']; subst. clear Fr.
  assert (Lp : zlen p + 1 + zlen q = size l + 1 + size r). { pose proof (f_equal zlen E) as LE. revert LE. zl. lia. } pose proof (zlen_nonneg q).
  cbn [remove_calls getitem_cost]. rewrite (cnt_ok _ Cl), (u32_id (size l)) by lia. rewrite (u32_id (add + size l)) by lia. rewrite !(u32_id (add + size l + 1)) by lia. rewrite (u32_id (add + 1 + size l)) by lia.
  destruct (Z.eqb_spec (add + size l) (add + zlen p)) as [E1|E1].
  { destruct (cut_eq _ _ _ _ _ _ E ltac:(lia)) as (<- & <- & <-). cbn [snd]. pose proof (merge_gap l r Hl Hr Nl Nr Fl Fr'). lia. }
  destruct (Z.ltb_spec (add + size l) (add + zlen p)) as [E2|E2].
  - (* to the right *)
    destruct (cut_right _ _ _ _ _ _ E ltac:(lia)) as (p1 & -> & Er). pose proof (gap_right (inorder l) (a, (pr, v)) p1 q) as G. revert E1 E2 Lp. zl. intros E1 E2 Lp.
    specialize (IHr (add + 1 + size l) p1 x q Cr Hr Nr Fr' ltac:(lia) ltac:(lia) Er). replace (add + 1 + size l + zlen p1) with (add + (zlen (inorder l) + (1 + zlen p1))) in IHr by lia.
    destruct (getitem_cost r _ _) as [it n] eqn:EC in *. cbn [snd] in *. pose proof (zlen_nonneg p1).
    replace ((match l with Leaf => UINT_MAX | Node _ _ _ _ ll _ => u32 (cnt ll + add) end) =? add + (zlen (inorder l) + (1 + zlen p1))) with false.
    2:{ symmetry. apply Z.eqb_neq. destruct l as [|la lp lc lv l1 l2]; [unfold UINT_MAX; lia|]. cbn [cok] in Cl. destruct Cl as (_ & C1 & _). rewrite size_node in *. pose proof (size_nn l1). pose proof (size_nn l2). rewrite (cnt_ok _ C1), (u32_id (size l1)) by lia. rewrite u32_id by lia. lia. }
    destruct (_ =? _) eqn:E3; [|replace (add + size l + 1) with (add + 1 + size l) by lia; lia].
    destruct r as [|ra rp rc rv r1 r2]; [cbn in Er; now apply app_cons_not_nil in Er|]. destruct (spine_parts _ _ _ _ _ _ Hr Nr) as (Hr1 & Hr2 & Nr1 & Nr2 & _ & _). cbn [cok] in Cr. destruct Cr as (_ & C1 & C2). rewrite size_node in *. pose proof (size_nn r1). pose proof (size_nn r2).
    rewrite (cnt_ok _ C1), (u32_id (size r1)) in E3 by lia. rewrite u32_id in E3 by lia. apply Z.eqb_eq in E3. cbn [inorder] in Er. destruct (cut_eq _ _ _ _ _ _ Er ltac:(rewrite inorder_len; lia)) as (<- & <- & <-).
    cbn [inorder] in Fr'. rewrite map_app in Fr'. cbn [map] in Fr'. apply Forall_app in Fr' as [F1 F2]. inversion F2; subst. pose proof (merge_gap r1 r2 Hr1 Hr2 Nr1 Nr2 ltac:(assumption) ltac:(assumption)).
    pose proof (cost_pos (Node ra rp rc rv r1 r2) (add + (zlen (inorder l) + (1 + zlen (inorder r1)))) (add + 1 + size l) ltac:(discriminate)) as Y. rewrite EC in Y. cbn [snd] in Y. lia.
  - (* to the left *)
    destruct (cut_left _ _ _ _ _ _ E ltac:(lia)) as (q1 & -> & El). pose proof (gap_left p q1 (a, (pr, v)) (inorder r)) as G.
    specialize (IHl add p x q1 Cl Hl Nl Fl ltac:(lia) ltac:(lia) El).
    destruct (getitem_cost l _ _) as [it n] eqn:EC in *. cbn [snd] in *.
    destruct l as [|la lp lc lv l1 l2]; [cbn in El; now apply app_cons_not_nil in El|]. destruct (spine_parts _ _ _ _ _ _ Hl Nl) as (Hr1 & Hr2 & Nr1 & Nr2 & _ & _). cbn [cok] in Cl. destruct Cl as (_ & C1 & C2). rewrite size_node in *. pose proof (size_nn l1). pose proof (size_nn l2).
    rewrite (cnt_ok _ C1), (u32_id (size l1)) by lia. rewrite (u32_id (size l1 + add)) by lia. destruct (Z.eqb_spec (size l1 + add) (add + zlen p)) as [E3|E3].
    + cbn [inorder] in El. destruct (cut_eq _ _ _ _ _ _ El ltac:(rewrite inorder_len; lia)) as (<- & <- & <-).
      cbn [inorder] in Fl. rewrite map_app in Fl. cbn [map] in Fl. apply Forall_app in Fl as [F1 F2]. inversion F2; subst. pose proof (merge_gap l1 l2 Hr1 Hr2 Nr1 Nr2 ltac:(assumption) ltac:(assumption)).
      assert (n = 1); [|lia]. cbn [getitem_cost] in EC. rewrite (cnt_ok _ C1), (u32_id (size l1)) in EC by lia. rewrite u32_id in EC by lia. replace (add + size l1 =? add + zlen (inorder l1)) with true in EC by lia. now injection EC.
    + replace ((match r with Leaf => UINT_MAX | Node _ _ _ _ rl _ => u32 (cnt rl + (add + (size l1 + 1 + size l2) + 1)) end) =? add + zlen p) with false; [cbn [snd]; lia|].
      symmetry. apply Z.eqb_neq. destruct r as [|ra rp rc rv r1 r2]; [unfold UINT_MAX; rewrite ?zlen_nil in *; lia|]. cbn [cok] in Cr. destruct Cr as (_ & D1 & _). rewrite size_node in *. pose proof (size_nn r1). pose proof (size_nn r2). rewrite (cnt_ok _ D1), (u32_id (size r1)) by lia. rewrite u32_id by lia. lia.
Qed.
End Sp.

(** ---------- averages of records from a gap ---------- *)
Section Av2.
Variable ks : list Z.
Hypothesis Hks : NoDup ks.
Hypothesis Hpos : Forall (fun k => 0 <= k) ks.
Variable P : list (list Z).
Hypothesis HP : all_orders ks P.
Notation n := (length ks).
Lemma harm_sum1 N : forall m, zsum (map (fun d => N / Z.of_nat (d + 1)) (seq 0 m)) = harmonic N m.
Proof. induction m as [|m IH]; [reflexivity|]. rewrite seq_S, map_app, zsum_app, IH. change (harmonic N (S m)) with (harmonic N m + N / Z.of_nat (S m)). replace (S m) with (0 + m + 1)%nat by lia. unfold zsum at 1. cbn [map fold_right]. lia. Qed.
Lemma P_pos l j : In l P -> (j < n)%nat -> 0 <= nth j l 0.
Proof. intros Hl Hj. pose proof (P_len ks P HP l Hl) as L. apply HP in Hl. pose proof (Permutation_Forall Hl Hpos) as F. rewrite Forall_forall in F. apply F. apply nth_In. lia. Qed.
Lemma gap_right_filter i l : In l P -> (i <= n)%nat -> records (-1) (skipn i l) = Z.of_nat (length (filter (fun d => top i (i + d) (i + d) l) (seq 0 (n - i)))).
Proof.
  intros Hl Hi. pose proof (P_len ks P HP l Hl) as L. rewrite records_filter. rewrite skipn_length, L. do 2 f_equal. apply filter_ext_in. intros j Hj. apply in_seq in Hj.
  apply eq_true_iff_eq. rewrite top_spec, forallb_nth. cbn [length]. rewrite firstn_length, skipn_length. replace (Nat.min j (length l - i)) with j by lia. rewrite nth_skipn'. split.
  - intros H x Hx Hx2. specialize (H (S (x - i)) ltac:(lia)). cbn [nth] in H. rewrite nth_firstn', nth_skipn' in H by lia. replace (i + (x - i))%nat with x in H by lia. lia.
  - intros H [|x] Hx; cbn [nth]; apply Z.ltb_lt; [pose proof (P_pos l (i + j) Hl ltac:(lia)); lia|]. rewrite nth_firstn', nth_skipn' by lia. apply H; lia.
Qed.
Lemma gap_left_filter i l : In l P -> (i <= n)%nat -> records (-1) (rev (firstn i l)) = Z.of_nat (length (filter (fun d => top (i - 1 - d) (i - 1) (i - 1 - d) l) (seq 0 i))).
Proof.
  intros Hl Hi. pose proof (P_len ks P HP l Hl) as L. rewrite records_filter. rewrite rev_length, firstn_length. replace (Nat.min i (length l)) with i by lia. do 2 f_equal. apply filter_ext_in. intros j Hj. apply in_seq in Hj.
  assert (R : forall x, (x < i)%nat -> nth x (rev (firstn i l)) 0 = nth (i - 1 - x) l 0).
  { intros x Hx. rewrite rev_nth by (rewrite firstn_length; lia). rewrite firstn_length. replace (Nat.min i (length l)) with i by lia. rewrite nth_firstn' by lia. f_equal. lia. }
  apply eq_true_iff_eq. rewrite top_spec, forallb_nth. cbn [length]. rewrite firstn_length, rev_length, firstn_length. replace (Nat.min j (Nat.min i (length l))) with j by lia. rewrite R by lia. split.
  - intros H x Hx Hx2. specialize (H (S (i - 1 - x)) ltac:(lia)). cbn [nth] in H. rewrite nth_firstn', R in H by lia. replace (i - 1 - (i - 1 - x))%nat with x in H by lia. lia.
  - intros H [|x] Hx; cbn [nth]; apply Z.ltb_lt; [pose proof (P_pos l (i - 1 - j) Hl ltac:(lia)); lia|]. rewrite nth_firstn', R by lia. apply H; lia.
Qed.
Lemma sum_gap_right i : (i <= n)%nat -> zsum (map (fun l => records (-1) (skipn i l)) P) = harmonic (zlen P) (n - i).
Proof.
  intros Hi. rewrite (zsum_map_ext _ (fun l => Z.of_nat (length (filter (fun d => top i (i + d) (i + d) l) (seq 0 (n - i)))))) by (intros l Hl; now apply gap_right_filter).
  rewrite (count_double (fun l d => top i (i + d) (i + d) l)). rewrite <- harm_sum1. apply zsum_map_ext. intros d Hd. apply in_seq in Hd. apply (count_top_div ks Hks P HP i (i + d) (i + d)); lia.
Qed.
Lemma sum_gap_left i : (i <= n)%nat -> zsum (map (fun l => records (-1) (rev (firstn i l))) P) = harmonic (zlen P) i.
Proof.
  intros Hi. rewrite (zsum_map_ext _ (fun l => Z.of_nat (length (filter (fun d => top (i - 1 - d) (i - 1) (i - 1 - d) l) (seq 0 i))))) by (intros l Hl; now apply gap_left_filter).
  rewrite (count_double (fun l d => top (i - 1 - d) (i - 1) (i - 1 - d) l)). rewrite <- harm_sum1. apply zsum_map_ext. intros d Hd. apply in_seq in Hd. apply (count_top_div ks Hks P HP (i - 1 - d) (i - 1) (i - 1 - d)); lia.
Qed.
End Av2.

(** ---------- exact and lower bounds ---------- *)
Section Ex.
Context {A : Type}.
Implicit Types t l r : tree A.
Lemma edge_r b : forall t, heap_ordered t -> prior_le b t -> Forall (fun k => k <= b) (right_edge t).
Proof. induction t as [|a p c v l IHl r IHr]; intros H B; [constructor|]. cbn [heap_ordered prior_le right_edge] in *. destruct H as (_ & Br & _ & Hr). constructor; [exact B|]. apply IHr; [exact Hr|]. eapply prior_le_trans; eauto. Qed.
Lemma edge_l b : forall t, heap_ordered t -> prior_le b t -> Forall (fun k => k <= b) (left_edge t).
Proof. induction t as [|a p c v l IHl r IHr]; intros H B; [constructor|]. cbn [heap_ordered prior_le left_edge] in *. destruct H as (Bl & _ & Hl & _). constructor; [exact B|]. apply IHl; [exact Hl|]. eapply prior_le_trans; eauto. Qed.
Lemma last_in (x : Z) : forall s d, In (last (x :: s) d) (x :: s).
Proof. intros s. revert x. induction s as [|y s IH]; intros x d; [now left|]. change (last (x :: y :: s) d) with (last (y :: s) d). right. apply IH. Qed.
Lemma none_above b s : Forall (fun k => k <= b) s -> above b s = 0.
Proof. unfold above. induction 1 as [|k s H F IH]; [reflexivity|]. cbn [filter]. destruct (Z.ltb_spec b k); [lia|exact IH]. Qed.
Lemma none_at_least b s : Forall (fun k => k < b) s -> at_least b s = 0.
Proof. unfold at_least. induction 1 as [|k s H F IH]; [reflexivity|]. cbn [filter]. destruct (Z.leb_spec b k); [lia|exact IH]. Qed.
Lemma merge_calls_eq l r : merge_calls l r = match l, r with
  | Leaf, _ => 1 | _, Leaf => 1
  | Node _ lp _ _ _ lr, Node _ rp _ _ rl _ => if rp <? lp then 1 + merge_calls lr r else 1 + merge_calls l rl end.
Proof. destruct l, r; reflexivity. Qed.
Lemma merge_exact : forall l r, heap_ordered l -> heap_ordered r -> merge_calls l r =
  match right_edge l, left_edge r with
  | [], _ => 1 | _, [] => 1
  | s, t => 1 + above (last t 0) s + at_least (last s 0) t end.
Proof.
  induction l as [|la lp lc lv l1 IH1 l2 IH2]; intros r Hl Hr; [now destruct r|].
  induction r as [|ra rp rc rv r1 IHr1 r2 IHr2]; [reflexivity|].
  rewrite merge_calls_eq. destruct (Z.ltb_spec rp lp) as [C|C].
  - pose proof (edge_l rp _ Hr ltac:(cbn; lia)) as F. pose proof Hl as (_ & Bl & _ & Hl2). rewrite IH2 by assumption. set (T := left_edge (Node ra rp rc rv r1 r2)) in *. assert (LT : last T 0 < lp).
    { rewrite Forall_forall in F. pose proof (F (last T 0) (last_in rp (left_edge r1) 0)). lia. }
    cbn [right_edge]. destruct T as [|t0 T0] eqn:ET; [discriminate|]. destruct (right_edge l2) as [|s0 S0] eqn:ES.
    + change (last [lp] 0) with lp. rewrite none_at_least by (eapply Forall_impl; [|exact F]; cbn; intros; lia). unfold above. cbn [filter]. replace (last (t0 :: T0) 0 <? lp) with true by lia. reflexivity.
    + change (last (lp :: s0 :: S0) 0) with (last (s0 :: S0) 0). replace (above (last (t0 :: T0) 0) (lp :: s0 :: S0)) with (1 + above (last (t0 :: T0) 0) (s0 :: S0)); [lia|]. unfold above. change (filter ?f (lp :: ?x)) with (if f lp then lp :: filter f x else filter f x). cbv beta. replace (last (t0 :: T0) 0 <? lp) with true by lia. unfold above. cbn [length]. lia.
  - pose proof (edge_r lp _ Hl ltac:(cbn; lia)) as F. pose proof Hr as (Br & _ & Hr1 & _). rewrite IHr1 by assumption. set (T := right_edge (Node la lp lc lv l1 l2)) in *. assert (LT : last T 0 <= rp).
    { rewrite Forall_forall in F. pose proof (F (last T 0) (last_in lp (right_edge l2) 0)). lia. }
    cbn [left_edge]. destruct T as [|t0 T0] eqn:ET; [discriminate|]. destruct (left_edge r1) as [|s0 S0] eqn:ES.
    + change (last [rp] 0) with rp. rewrite none_above by (eapply Forall_impl; [|exact F]; cbn; intros; lia). unfold at_least. cbn [filter]. replace (last (t0 :: T0) 0 <=? rp) with true by lia. reflexivity.
    + change (last (rp :: s0 :: S0) 0) with (last (s0 :: S0) 0). replace (at_least (last (t0 :: T0) 0) (rp :: s0 :: S0)) with (1 + at_least (last (t0 :: T0) 0) (s0 :: S0)); [lia|]. unfold at_least. change (filter ?f (rp :: ?x)) with (if f rp then rp :: filter f x else filter f x). cbv beta. replace (last (t0 :: T0) 0 <=? rp) with true by lia. unfold at_least. cbn [length]. lia.
Qed.
Lemma remove_calls_ge : forall t add p x q, cok t -> 0 <= add -> add + size t < 2 ^ 32 -> inorder t = p ++ x :: q ->
  snd (getitem_cost t (add + zlen p) add) <= remove_calls t (add + zlen p) add /\ 2 <= remove_calls t (add + zlen p) add.
Proof.
  induction t as [|a pr c v l IHl r IHr]; intros add p x q C Ha Hs E; [now apply app_cons_not_nil in E|].
  rewrite size_node in Hs. cbn [cok inorder] in *. destruct C as (_ & Cl & Cr).
  pose proof (size_nn l). pose proof (size_nn r). pose proof (zlen_nonneg p). pose proof (inorder_len l) as Zl. pose proof (inorder_len r) as Zr.
  assert (Lp : zlen p + 1 + zlen q = size l + 1 + size r). { pose proof (f_equal zlen E) as LE. revert LE. zl. lia. } pose proof (zlen_nonneg q).
  cbn [remove_calls getitem_cost]. rewrite (cnt_ok _ Cl), (u32_id (size l)) by lia. rewrite (u32_id (add + size l)) by lia. rewrite !(u32_id (add + size l + 1)) by lia. rewrite (u32_id (add + 1 + size l)) by lia.
  destruct (Z.eqb_spec (add + size l) (add + zlen p)) as [E1|E1].
  { cbn [snd]. pose proof (merge_calls_le l r). lia. }
  destruct (Z.ltb_spec (add + size l) (add + zlen p)) as [E2|E2].
  - destruct (cut_right _ _ _ _ _ _ E ltac:(lia)) as (p1 & -> & Er). revert E1 E2 Lp. zl. intros E1 E2 Lp.
    specialize (IHr (add + 1 + size l) p1 x q Cr ltac:(lia) ltac:(lia) Er). replace (add + 1 + size l + zlen p1) with (add + (zlen (inorder l) + (1 + zlen p1))) in IHr by lia.
    destruct (getitem_cost r _ _) as [it n] eqn:EC in *. cbn [snd] in *. pose proof (zlen_nonneg p1).
    replace ((match l with Leaf => UINT_MAX | Node _ _ _ _ ll _ => u32 (cnt ll + add) end) =? add + (zlen (inorder l) + (1 + zlen p1))) with false.
    2:{ symmetry. apply Z.eqb_neq. destruct l as [|la lp lc lv l1 l2]; [unfold UINT_MAX; lia|]. cbn [cok] in Cl. destruct Cl as (_ & C1 & _). rewrite size_node in *. pose proof (size_nn l1). pose proof (size_nn l2). rewrite (cnt_ok _ C1), (u32_id (size l1)) by lia. rewrite u32_id by lia. lia. }
    destruct (_ =? _) eqn:E3; [|replace (add + size l + 1) with (add + 1 + size l) by lia; lia].
    destruct r as [|ra rp rc rv r1 r2]; [cbn in Er; now apply app_cons_not_nil in Er|]. cbn [cok] in Cr. destruct Cr as (_ & C1 & C2). rewrite size_node in *. pose proof (size_nn r1). pose proof (size_nn r2).
    rewrite (cnt_ok _ C1), (u32_id (size r1)) in E3 by lia. rewrite u32_id in E3 by lia. apply Z.eqb_eq in E3. pose proof (merge_calls_le r1 r2).
    assert (n = 1); [|lia]. cbn [getitem_cost] in EC. rewrite (cnt_ok _ C1), (u32_id (size r1)) in EC by lia. rewrite (u32_id (add + 1 + size l + size r1)) in EC by lia. replace (add + 1 + size l + size r1 =? add + (zlen (inorder l) + (1 + zlen p1))) with true in EC by lia. now injection EC.
  - destruct (cut_left _ _ _ _ _ _ E ltac:(lia)) as (q1 & -> & El). specialize (IHl add p x q1 Cl ltac:(lia) ltac:(lia) El).
    destruct (getitem_cost l _ _) as [it n] eqn:EC in *. cbn [snd] in *.
    destruct l as [|la lp lc lv l1 l2]; [cbn in El; now apply app_cons_not_nil in El|]. cbn [cok] in Cl. destruct Cl as (_ & C1 & C2). rewrite size_node in *. pose proof (size_nn l1). pose proof (size_nn l2).
    rewrite (cnt_ok _ C1), (u32_id (size l1)) by lia. rewrite (u32_id (size l1 + add)) by lia. destruct (Z.eqb_spec (size l1 + add) (add + zlen p)) as [E3|E3].
    + pose proof (merge_calls_le l1 l2).
      assert (n = 1); [|lia]. cbn [getitem_cost] in EC. rewrite (cnt_ok _ C1), (u32_id (size l1)) in EC by lia. rewrite u32_id in EC by lia. replace (add + size l1 =? add + zlen p) with true in EC by lia. now injection EC.
    + replace ((match r with Leaf => UINT_MAX | Node _ _ _ _ rl _ => u32 (cnt rl + (add + (size l1 + 1 + size l2) + 1)) end) =? add + zlen p) with false; [lia|].
      symmetry. apply Z.eqb_neq. destruct r as [|ra rp rc rv r1 r2]; [unfold UINT_MAX; rewrite ?zlen_nil in *; lia|]. cbn [cok] in Cr. destruct Cr as (_ & D1 & _). rewrite size_node in *. pose proof (size_nn r1). pose proof (size_nn r2). rewrite (cnt_ok _ D1), (u32_id (size r1)) by lia. rewrite u32_id by lia. lia.
Qed.
End Ex.

(** ---------- lists ---------- *)
Section L.
Context {A : Type}.
Implicit Types t : tlist A.
Definition distinct t : Prop := NoDup (map prio (inorder (troot t))) /\ Forall (fun k => 0 <= k) (map prio (inorder (troot t))).
Lemma reach_distinct' seed h t : 0 <= seed < 2 ^ 32 -> reach seed h t -> Z.of_nat (length h) <= 2 ^ 31 -> distinct t.
Proof.
  intros S0 R L. split; [eapply reach_distinct; eauto|]. destruct R as [V (rs & R)].
  assert (P0 : pinv seed 0 (mkTl (A := A) seed Leaf)) by (split; [reflexivity|exists []; repeat split; constructor]).
  destruct (run_pinv seed h 0 _ _ rs t (init_good seed) V P0 R) as (m & Lm & _ & is & N & F & E). rewrite E. apply Forall_forall. intros k Hk. apply in_map_iff in Hk as (j & <- & _). apply prior_rng.
Qed.
Lemma insert_one t xs p q v : tgood t xs -> distinct t -> inorder (troot t) = p ++ q ->
  3 + records (-1) (rev (map prio p)) + records (-1) (map prio q) <= tlist_insert_calls t (zlen p) v <= 5 + 3 * records (-1) (rev (map prio p)) + 2 * records (-1) (map prio q).
Proof.
  intros G [N F] E. pose proof (tgood_size _ _ G) as Sz. pose proof (tgood_len _ _ G) as Li. pose proof G as (Ee & C & H & B). pose proof (f_equal zlen E) as LE. revert LE. zl. intros LE. pose proof (zlen_nonneg p). pose proof (zlen_nonneg q).
  unfold tlist_insert_calls. rewrite Sz. destruct (Z.ltb_spec (zlen xs) (zlen p)); [lia|]. rewrite u32_id by lia. destruct (mrand (tseed t)) as [s pr].
  assert (S1 : size (troot t) = zlen xs) by (unfold size; now rewrite Ee).
  destruct (split_ok (troot t) (zlen p) 0 C H ltac:(lia) ltac:(lia) ltac:(lia)) as (x & y & Es & E1 & E2 & Cx & Cy & Hx & Hy & _).
  assert (S2 : size (tag (troot t)) = zlen xs) by (unfold size; rewrite tag_inorder; exact Li).
  destruct (split_ok (tag (troot t)) (zlen p) 0 (tag_cok _ C) (tag_heap _ H)) as (x' & y' & Es' & E1' & E2' & _); try lia.
  rewrite tag_split, Es in Es'. cbn [fst snd] in Es'. injection Es' as <- <-. rewrite !tag_inorder in E1'. unfold size in E2'. rewrite tag_inorder in E2'.
  assert (X : inorder x = p /\ inorder y = q). { rewrite E in E1'. assert (Lx : length (inorder x) = length p) by (unfold zlen in E2'; lia). clear -E1' Lx. revert p E1' Lx. generalize (inorder x) as a. induction a as [|z a IH]; intros [|w p] E L; try discriminate; [auto|]. cbn [app length] in *. injection E as -> E. destruct (IH p E ltac:(lia)) as [-> ->]. auto. }
  destruct X as [<- <-]. rewrite E, map_app in N, F. apply Forall_app in F as [Fx Fy]. destruct (nodup_app1 _ _ N) as [Nx Ny].
  pose proof (insert_calls_le (troot t) 0 pr v _ x y Es) as I. rewrite rl_records, ll_records in I by assumption. exact I.
Qed.
Lemma delete_one t xs p x q : tgood t xs -> distinct t -> inorder (troot t) = p ++ x :: q ->
  2 + 2 * (records (prio x) (map prio q) + records (prio x) (rev (map prio p))) <= tlist_delete_calls t (zlen p) <= 3 + 2 * (records (prio x) (map prio q) + records (prio x) (rev (map prio p))) + records (-1) (rev (map prio p)) + records (-1) (map prio q).
Proof.
  intros G [N F] E. pose proof (tgood_size _ _ G) as Sz. pose proof (tgood_len _ _ G) as Li. pose proof G as (Ee & C & H & B). pose proof (f_equal zlen E) as LE. revert LE. zl. intros LE. pose proof (zlen_nonneg p). pose proof (zlen_nonneg q).
  assert (S1 : size (troot t) = zlen xs) by (unfold size; now rewrite Ee).
  unfold tlist_delete_calls. rewrite Sz. destruct (Z.leb_spec (zlen xs) (zlen p)); [lia|]. rewrite u32_id by lia.
  pose proof (cost_ok (troot t) 0 p x q C H N ltac:(lia) ltac:(lia) E) as K. pose proof (remove_calls_le (troot t) 0 p x q C H N F ltac:(lia) ltac:(lia) E) as R. pose proof (remove_calls_ge (troot t) 0 p x q C ltac:(lia) ltac:(lia) E) as R2. rewrite Z.add_0_l in *. unfold gap in R. lia.
Qed.
End L.
Section W2.
Variable seed : Z.
Hypothesis Hseed : 0 <= seed < 2 ^ 32.
Context {A : Type}.
Lemma ps_pos n : Forall (fun k => 0 <= k) (ps seed n).
Proof using. apply Forall_forall. intros k Hk. unfold ps in Hk. apply in_map_iff in Hk as (j & <- & _). apply prior_rng. Qed.
Lemma built (items : list (Z * A)) w : zlen items <= 2 ^ 31 -> way (zlen items) w ->
  exists rs t xs, trun (mkTl seed Leaf) (insertions items w) = Ret (rs, t) /\ tgood t xs /\ zlen xs = zlen items /\ tlist_getsize t = zlen items /\ map prio (inorder (troot t)) = ord seed 0 [] w /\ distinct t.
Proof.
  intros Hn W. assert (Wn : way (Z.of_nat (length items)) w) by exact W.
  destruct (run_ord seed items w 0 (mkTl seed Leaf) []) as (rs & t & xs & R & G & L & O); try reflexivity; try (apply init_good); try (apply way_length; exact Wn); try lia.
  { intros j Hj. destruct W as [Lw V]. apply V. lia. }
  exists rs, t, xs. split; [exact R|]. split; [exact G|]. split; [exact L|]. split; [unfold tlist_getsize; rewrite (tgood_size _ _ G), L; reflexivity|]. cbn [map inorder troot] in O. split; [exact O|].
  pose proof (ord_perm seed (length items) w Wn) as HP. unfold distinct. rewrite O. split; [apply (Permutation_NoDup HP), ps_nodup; [exact Hseed|unfold zlen in Hn; lia]|apply (Permutation_Forall HP), ps_pos].
Qed.
Lemma firstn_map' {X Y} (f : X -> Y) n l : firstn n (map f l) = map f (firstn n l).
Proof. apply firstn_map. Qed.
Lemma insert_way (items : list (Z * A)) w i v : zlen items <= 2 ^ 31 -> way (zlen items) w -> 0 <= i <= zlen items ->
  exists c, insert_cost seed items i v w c /\ 3 + records (-1) (rev (firstn (Z.to_nat i) (ord seed 0 [] w))) + records (-1) (skipn (Z.to_nat i) (ord seed 0 [] w)) <= c <= 5 + 3 * records (-1) (rev (firstn (Z.to_nat i) (ord seed 0 [] w))) + 2 * records (-1) (skipn (Z.to_nat i) (ord seed 0 [] w)).
Proof.
  intros Hn W Hi. destruct (built items w Hn W) as (rs & t & xs & R & G & L & Sz & O & D). exists (tlist_insert_calls t i v). split; [exists rs, t; auto|].
  pose proof (tgood_len _ _ G) as Li. pose proof (insert_one t xs (firstn (Z.to_nat i) (inorder (troot t))) (skipn (Z.to_nat i) (inorder (troot t))) v G D (eq_sym (firstn_skipn _ _))) as I.
  replace (zlen (firstn (Z.to_nat i) (inorder (troot t)))) with i in I. 2:{ unfold zlen in *. rewrite firstn_length. lia. }
  rewrite <- O. rewrite firstn_map, skipn_map. exact I.
Qed.
Lemma delete_way (items : list (Z * A)) w i : zlen items <= 2 ^ 31 -> way (zlen items) w -> 0 <= i < zlen items ->
  exists c, delete_cost seed items i w c /\ 2 + 2 * (right_recs (Z.to_nat i) (ord seed 0 [] w) + left_recs (Z.to_nat i) (ord seed 0 [] w)) <= c <= 3 + 2 * (right_recs (Z.to_nat i) (ord seed 0 [] w) + left_recs (Z.to_nat i) (ord seed 0 [] w)) + records (-1) (rev (firstn (Z.to_nat i) (ord seed 0 [] w))) + records (-1) (skipn (S (Z.to_nat i)) (ord seed 0 [] w)).
Proof.
  intros Hn W Hi. destruct (built items w Hn W) as (rs & t & xs & R & G & L & Sz & O & D). exists (tlist_delete_calls t i). split; [exists rs, t; auto|].
  pose proof (tgood_len _ _ G) as Li. destruct (inorder (troot t)) as [|y0 ys] eqn:Ey; [rewrite zlen_nil in Li; lia|]. rewrite <- Ey in *.
  destruct (zsplit1' y0 i (inorder (troot t))) as (p & q & E1 & E2); [lia|]. set (x := znth y0 (inorder (troot t)) i) in *.
  pose proof (delete_one t xs p x q G D E1) as I. rewrite E2 in I.
  assert (Ep : Z.to_nat i = length (map (@prio A) p)) by (rewrite map_length; unfold zlen in E2; lia). unfold right_recs, left_recs. rewrite <- O, E1, map_app. cbn [map]. rewrite Ep.
  rewrite nth_middle. rewrite firstn_app, firstn_all, Nat.sub_diag. cbn [firstn]. rewrite app_nil_r.
  change (prio x :: map prio q) with ([prio x] ++ map prio q). rewrite app_assoc. rewrite skipn_app. rewrite skipn_all2 by (rewrite app_length; cbn; lia). rewrite app_length. cbn [length]. replace (S (length (map prio p)) - (length (map prio p) + 1))%nat with 0%nat by lia. exact I.
Qed.
End W2.
Lemma choose_costs (R : list Z -> Z -> Prop) (g f : list Z -> Z) ws : (forall w, In w ws -> exists c, R w c /\ g w <= c <= f w) -> exists cs, Forall2 R ws cs /\ zsum (map g ws) <= zsum cs <= zsum (map f ws).
Proof.
  induction ws as [|w ws IH]; intros H; [exists []; split; [constructor|cbn; lia]|]. destruct (H w ltac:(now left)) as (c & Rc & Lc). destruct IH as (cs & F & L); [intros u Hu; apply H; now right|].
  exists (c :: cs). split; [now constructor|]. unfold zsum in *. cbn [map fold_right]. lia.
Qed.
Lemma zsum_scale {X} k (f : X -> Z) l : zsum (map (fun x => k * f x) l) = k * zsum (map f l).
Proof. induction l as [|x l IH]; [cbn; lia|]. unfold zsum in *. cbn [map fold_right]. lia. Qed.
