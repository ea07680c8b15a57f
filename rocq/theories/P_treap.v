(** Proofs about the shape of tlist's tree. *)
From Coq Require Import Permutation.
From Verif Require Import Base M_tlist S_tlist D_tlist P_tlist P_mrand M_tlcost S_treap D_treap.

Section Tag.
Context {A : Type}.
Implicit Types t l r : tree A.
(** the same tree with the priority in the payload *)
Fixpoint tag t : tree (Z * A) := match t with Leaf => Leaf | Node a p c v l r => Node a p c (p, v) (tag l) (tag r) end.
Lemma tag_cnt t : cnt (tag t) = cnt t.
Proof. destruct t; reflexivity. Qed.
Lemma tag_upd t : tag (upd_cnt t) = upd_cnt (tag t).
Proof. destruct t; [reflexivity|]. cbn [tag upd_cnt]. now rewrite !tag_cnt. Qed.
Lemma tag_merge : forall l r, tag (merge l r) = merge (tag l) (tag r).
Proof.
  induction l as [|la lp lc lv ll _ lr IHl]; intros r; [rewrite !merge_eq; destruct r; apply tag_upd|].
  induction r as [|ra rp rc rv rl IHr rr _]; [rewrite merge_eq; cbn [tag]; rewrite (merge_eq (Node _ _ _ _ _ _)); apply tag_upd|].
  rewrite merge_eq. cbn [tag]. rewrite (merge_eq (Node _ _ _ (lp, lv) _ _)). destruct (rp <? lp).
  - rewrite tag_upd. cbn [tag]. now rewrite IHl.
  - rewrite tag_upd. cbn [tag]. cbn [tag] in IHr. now rewrite IHr.
Qed.
Lemma tag_split : forall t key add, split (tag t) key add = (tag (fst (split t key add)), tag (snd (split t key add))).
Proof.
  induction t as [|a p c v l IHl r IHr]; intros key add; [reflexivity|]. cbn [tag split]. rewrite tag_cnt. destruct (key <=? _).
  - rewrite IHl. destruct (split l key add) as [x y]. cbn [fst snd]. now rewrite tag_upd.
  - rewrite IHr. destruct (split r key _) as [x y]. cbn [fst snd]. now rewrite tag_upd.
Qed.
Lemma tag_remove : forall t idx add, remove (tag t) idx add = let* x := remove t idx add in Ret (tag x).
Proof.
  induction t as [|a p c v l IHl r IHr]; intros idx add; [reflexivity|]. cbn [tag remove].
  assert (El : match tag l with Leaf => UINT_MAX | Node _ _ _ _ ll _ => u32 (cnt ll + add) end = match l with Leaf => UINT_MAX | Node _ _ _ _ ll _ => u32 (cnt ll + add) end) by (destruct l; cbn [tag]; rewrite ?tag_cnt; reflexivity).
  assert (Er : forall n, match tag r with Leaf => UINT_MAX | Node _ _ _ _ rl _ => u32 (cnt rl + n) end = match r with Leaf => UINT_MAX | Node _ _ _ _ rl _ => u32 (cnt rl + n) end) by (intros n; destruct r; cbn [tag]; rewrite ?tag_cnt; reflexivity).
  rewrite El, Er, tag_cnt. destruct (_ =? idx); [cbn [bind]; now rewrite tag_merge|]. destruct (_ =? idx).
  { destruct l; cbn [tag]; [reflexivity|]. cbn [bind]. rewrite tag_upd. cbn [tag]. now rewrite tag_merge. }
  destruct (_ =? idx).
  { destruct r; cbn [tag]; [reflexivity|]. cbn [bind]. rewrite tag_upd. cbn [tag]. now rewrite tag_merge. }
  destruct (_ <? idx); [rewrite IHr; destruct (remove r _ _)|rewrite IHl; destruct (remove l _ _)]; cbn [bind]; try reflexivity; now rewrite tag_upd.
Qed.
Lemma tag_getitem : forall t idx add, option_map fst (getitem (tag t) idx add) = option_map fst (getitem t idx add).
Proof. induction t as [|a p c v l IHl r IHr]; intros idx add; [reflexivity|]. cbn [tag getitem]. rewrite tag_cnt. destruct (_ =? idx); [reflexivity|]. destruct (_ <? idx); auto. Qed.
Lemma tag_inorder t : elems (tag t) = inorder t.
Proof. induction t as [|a p c v l IHl r IHr]; [reflexivity|]. cbn [tag elems inorder]. now rewrite IHl, IHr. Qed.
Lemma inorder_elems t : map (fun x => (fst x, snd (snd x))) (inorder t) = elems t.
Proof. induction t as [|a p c v l IHl r IHr]; [reflexivity|]. cbn [elems inorder]. rewrite map_app. cbn [map fst snd]. now rewrite IHl, IHr. Qed.
Lemma inorder_len t : zlen (inorder t) = size t.
Proof. unfold size. rewrite <- inorder_elems. now rewrite zlen_map. Qed.
Lemma tag_cok t : cok t -> cok (tag t).
Proof.
  induction t as [|a p c v l IHl r IHr]; [easy|]. cbn [tag cok]. intros (C & Cl & Cr). split; [|auto]. rewrite C. f_equal. rewrite !size_node.
  assert (E : forall t, size (tag t) = size t) by (intros t0; unfold size at 1; rewrite tag_inorder; apply inorder_len). now rewrite !E.
Qed.
Lemma tag_heap t : heap_ordered t -> heap_ordered (tag t).
Proof.
  assert (P : forall b t, prior_le b t -> prior_le b (tag t)) by (intros b [|]; auto).
  induction t as [|a p c v l IHl r IHr]; [easy|]. cbn [tag heap_ordered]. intros (H1 & H2 & H3 & H4). auto.
Qed.
Lemma tag_inj : forall t u, tag t = tag u -> t = u.
Proof. induction t as [|a p c v l IHl r IHr]; intros [|b p' c' v' l' r'] E; try discriminate; [reflexivity|]. cbn [tag] in E. injection E as -> Ep -> Ev E1 E2. subst. f_equal; auto. Qed.

(** ---------- the Cartesian tree ---------- *)
Lemma heap_bound : forall t b, heap_ordered t -> prior_le b t -> Forall (fun x => prio x <= b) (inorder t).
Proof.
  induction t as [|a p c v l IHl r IHr]; intros b H B; [constructor|]. cbn [heap_ordered prior_le inorder] in *. destruct H as (Bl & Br & Hl & Hr).
  apply Forall_app. split; [apply IHl; auto; eapply prior_le_trans; eauto|]. constructor; [exact B|]. apply IHr; auto. eapply prior_le_trans; eauto.
Qed.
Lemma heap_cartesian : forall t, heap_ordered t -> cartesian prio (inorder t) (erase t).
Proof.
  induction t as [|a p c v l IHl r IHr]; intros H; [constructor|]. cbn [heap_ordered inorder erase] in *. destruct H as (Bl & Br & Hl & Hr).
  constructor; auto. apply Forall_app. split; apply heap_bound; auto.
Qed.
End Tag.
Lemma in_cut {B} (p q u w : list B) x y : NoDup (p ++ x :: q) -> p ++ x :: q = u ++ y :: w -> x = y -> p = u /\ q = w.
Proof.
  intros N E <-. revert u E N. induction p as [|a p IH]; intros [|b u] E N; cbn [app] in *.
  - injection E as ->. auto.
  - injection E as -> E. exfalso. inversion N as [|? ? I _]. apply I. rewrite E. apply in_or_app. right. now left.
  - injection E as -> E. exfalso. inversion N as [|? ? I _]. apply I. apply in_or_app. right. now left.
  - injection E as -> E. inversion N as [|? ? _ N']. destruct (IH u E N'). subst. auto.
Qed.
Lemma nodup_key {B} (key : B -> Z) (l : list B) : NoDup (map key l) -> forall x y, In x l -> In y l -> key x = key y -> x = y.
Proof.
  induction l as [|a l IH]; intros N x y X Y E; [easy|]. cbn [map] in N. inversion N as [|? ? I N']. subst. destruct X as [->|X], Y as [->|Y]; auto.
  - exfalso. apply I. rewrite E. now apply in_map.
  - exfalso. apply I. rewrite <- E. now apply in_map.
Qed.
Lemma nodup_app1 {B} (a b : list B) : NoDup (a ++ b) -> NoDup a /\ NoDup b.
Proof. induction a as [|x a IH]; cbn [app]; intros N; [split; [constructor|exact N]|]. inversion N as [|? ? I N']. destruct (IH N'). split; [|auto]. constructor; [|auto]. intros X. apply I. apply in_or_app. auto. Qed.
Lemma nodup_parts {B} (key : B -> Z) p x q : NoDup (map key (p ++ x :: q)) -> NoDup (map key p) /\ NoDup (map key q) /\ Forall (fun y => key y <> key x) (p ++ q).
Proof.
  rewrite map_app. cbn [map]. intros N. split; [exact (proj1 (nodup_app1 _ _ N))|]. split; [pose proof (proj2 (nodup_app1 _ _ N)) as H; now inversion H|].
  apply NoDup_remove_2 in N. rewrite <- map_app in N. apply Forall_forall. intros y Y E. apply N. rewrite <- E. now apply in_map.
Qed.
Lemma cartesian_unique {B} (key : B -> Z) : forall l s, cartesian key l s -> NoDup (map key l) -> forall s', cartesian key l s' -> s = s'.
Proof.
  intros l s C. induction C as [|p x q l r F Cl IHl Cr IHr]; intros N s' C'.
  - inversion C' as [|p x q ? ? ? ? ? E]; [reflexivity|]. symmetry in E; now apply app_cons_not_nil in E.
  - inversion C' as [E|p' x' q' l' r' F' Cl' Cr' E]; [now apply app_cons_not_nil in E|]. subst s'.
    assert (X : x = x').
    { apply (nodup_key key (p ++ x :: q) N); [apply in_elt|rewrite <- E; apply in_elt|].
      assert (I1 : In x' (p ++ x :: q)) by (rewrite <- E; apply in_elt). assert (I2 : In x (p' ++ x' :: q')) by (rewrite E; apply in_elt). rewrite Forall_forall in F, F'.
      assert (L1 : key x' <= key x) by (apply in_app_or in I1 as [I|[->|I]]; [apply F; apply in_or_app; auto|lia|apply F; apply in_or_app; auto]).
      assert (L2 : key x <= key x') by (apply in_app_or in I2 as [I|[->|I]]; [apply F'; apply in_or_app; auto|lia|apply F'; apply in_or_app; auto]). lia. }
    destruct (in_cut p q p' q' x x' (NoDup_map_inv _ _ N) (eq_sym E) X) as [<- <-]. subst x'. destruct (nodup_parts key p x q N) as (N1 & N2 & _). f_equal; auto.
Qed.
Section Trees.
Context {A : Type}.
Implicit Types t u : tree A.
Lemma erase_inj : forall t u, cok t -> cok u -> erase t = erase u -> t = u.
Proof.
  assert (S : forall t u : tree A, erase t = erase u -> size t = size u).
  { induction t as [|a p c v l IHl r IHr]; intros [|a' p' c' v' l' r'] E; try discriminate; [reflexivity|]. cbn [erase] in E. injection E as E1 E2 E3 E4 E5. rewrite !size_node. f_equal; [f_equal|]; auto. }
  induction t as [|a p c v l IHl r IHr]; intros [|a' p' c' v' l' r'] C C' E; try discriminate; [reflexivity|]. pose proof (S _ _ E) as Sz. cbn [erase cok] in *. injection E as E1 -> -> -> E5.
  destruct C as (-> & Cl & Cr), C' as (-> & Cl' & Cr'). f_equal; auto. now rewrite Sz.
Qed.
Lemma tree_unique t u : cok t -> cok u -> heap_ordered t -> heap_ordered u -> NoDup (map prio (inorder t)) -> inorder t = inorder u -> t = u.
Proof.
  intros C C' H H' N E. apply erase_inj; auto. apply (cartesian_unique prio (inorder t)); [now apply heap_cartesian|exact N|]. rewrite E. now apply heap_cartesian.
Qed.
(** ---------- the cost of a look-up ---------- *)
Lemma cost_fst : forall t idx add, fst (getitem_cost t idx add) = getitem t idx add.
Proof.
  induction t as [|a p c v l IHl r IHr]; intros idx add; [reflexivity|]. cbn [getitem_cost getitem]. destruct (_ =? idx); [reflexivity|]. destruct (_ <? idx).
  - specialize (IHr idx (u32 (add + 1 + cnt l))). destruct (getitem_cost r _ _). exact IHr.
  - specialize (IHl idx add). destruct (getitem_cost l _ _). exact IHl.
Qed.
Lemma records_above m ks : Forall (fun k => k <= m) ks -> records m ks = 0.
Proof. induction 1 as [|k ks H F IH]; [reflexivity|]. cbn [records]. destruct (m <? k) eqn:E; [lia|exact IH]. Qed.
Lemma records_app a x b : forall m, m < x -> Forall (fun k => k < x) a -> Forall (fun k => k <= x) b -> records m (a ++ x :: b) = records m a + 1.
Proof.
  induction a as [|k a IH]; intros m M Fa Fb; cbn [app records].
  - replace (m <? x) with true by lia. rewrite records_above by exact Fb. lia.
  - inversion Fa; subst. destruct (m <? k); rewrite IH by auto; lia.
Qed.
Lemma Forall_lt (F : list (Z * (Z * A))) b : Forall (fun y => prio y <= b) F -> Forall (fun y => prio y <> b) F -> Forall (fun k => k < b) (map prio F).
Proof. intros H1 H2. rewrite Forall_forall in *. intros k K. apply in_map_iff in K as (y & <- & I). specialize (H1 y I). specialize (H2 y I). lia. Qed.
Lemma cost_ok : forall t add p x q, cok t -> heap_ordered t -> NoDup (map prio (inorder t)) -> 0 <= add -> add + size t < 2 ^ 32 -> inorder t = p ++ x :: q ->
  snd (getitem_cost t (add + zlen p) add) = 1 + records (prio x) (map prio q) + records (prio x) (rev (map prio p)).
Proof.
  induction t as [|a pr c v l IHl r IHr]; intros add p x q C H N Ha Hs E; [now apply app_cons_not_nil in E|].
  rewrite size_node in Hs. cbn [cok heap_ordered inorder] in *. destruct C as (_ & Cl & Cr). destruct H as (Bl & Br & Hl & Hr).
  pose proof (size_nn l). pose proof (size_nn r). pose proof (zlen_nonneg p).
  destruct (nodup_parts prio _ _ _ N) as (Nl & Nr & Nx). apply Forall_app in Nx as [Nxl Nxr]. change (prio (a, (pr, v))) with pr in *.
  pose proof (Forall_lt _ _ (heap_bound _ _ Hl Bl) Nxl) as Ll. pose proof (Forall_lt _ _ (heap_bound _ _ Hr Br) Nxr) as Lr.
  pose proof (inorder_len l) as Zl. cbn [getitem_cost]. rewrite (cnt_ok _ Cl), (u32_id (size l)) by lia. rewrite (u32_id (add + size l)) by lia.
  destruct (add + size l =? add + zlen p) eqn:E1.
  - assert (E2 : zlen (inorder l) = zlen p) by lia.
    assert (Q : inorder l = p /\ (a, (pr, v)) = x /\ inorder r = q).
    { clear -E E2. revert p E E2. induction (inorder l) as [|y l0 IH]; intros [|z p] E E2; cbn [app] in *; rewrite ?zlen_nil, ?zlen_cons in *; try (pose proof (zlen_nonneg l0); lia); try (pose proof (zlen_nonneg p); lia).
      - injection E as -> ->. auto.
      - injection E as -> E. destruct (IH p E ltac:(lia)) as (-> & -> & ->). auto. }
    destruct Q as (<- & <- & <-). change (prio (a, (pr, v))) with pr. cbn [snd]. rewrite records_above by (eapply Forall_impl; [|exact Lr]; cbn; intros; lia).
    rewrite records_above; [reflexivity|]. apply Forall_rev. eapply Forall_impl; [|exact Ll]. cbn. intros. lia.
  - destruct (add + size l <? add + zlen p) eqn:E2.
    + assert (Q : exists p1, p = inorder l ++ (a, (pr, v)) :: p1 /\ inorder r = p1 ++ x :: q).
      { assert (E3 : zlen (inorder l) < zlen p) by lia. clear -E E3. revert p E E3. induction (inorder l) as [|y l0 IH]; intros [|z p] E E3; cbn [app] in *; rewrite ?zlen_nil, ?zlen_cons in *; try lia; try (pose proof (zlen_nonneg l0); lia).
        - injection E as -> E. exists p. auto.
        - injection E as -> E. destruct (IH p E ltac:(lia)) as (p1 & -> & ->). exists p1. auto. }
      destruct Q as (p1 & -> & Er). revert E1 E2 H1. zl. intros E1 E2 H1. rewrite u32_id by lia.
      specialize (IHr (add + 1 + size l) p1 x q Cr Hr Nr ltac:(lia) ltac:(lia) Er).
      replace (add + (zlen (inorder l) + (1 + zlen p1))) with (add + 1 + size l + zlen p1) by lia || replace (add + (zlen (inorder l) + (zlen p1 + 1))) with (add + 1 + size l + zlen p1) by lia.
      destruct (getitem_cost r _ _) as [it n]. cbn [snd] in *. rewrite IHr.
      rewrite map_app. cbn [map]. rewrite rev_app_distr. cbn [rev]. rewrite <- app_assoc. cbn [app]. change (prio (a, (pr, v))) with pr.
      rewrite Er, map_app in Lr. cbn [map] in Lr. apply Forall_app in Lr as [L1 L2]. inversion L2; subst.
      rewrite records_app; [lia|auto|now apply Forall_rev|]. apply Forall_rev. eapply Forall_impl; [|exact Ll]. cbn. intros. lia.
    + assert (Q : exists q1, q = q1 ++ (a, (pr, v)) :: inorder r /\ inorder l = p ++ x :: q1).
      { assert (E3 : zlen p < zlen (inorder l)) by lia. clear -E E3. revert E E3. generalize (inorder l). induction p as [|z p IH]; intros [|y l0] E E3; cbn [app] in *; rewrite ?zlen_nil, ?zlen_cons in *; try lia; try (pose proof (zlen_nonneg p); lia).
        - injection E as -> <-. exists l0. auto.
        - injection E as -> E. destruct (IH l0 E ltac:(lia)) as (q1 & -> & ->). exists q1. auto. }
      destruct Q as (q1 & -> & El). specialize (IHl add p x q1 Cl Hl Nl ltac:(lia) ltac:(lia) El).
      destruct (getitem_cost l _ _) as [it n]. cbn [snd] in *. rewrite IHl.
      rewrite map_app. cbn [map]. change (prio (a, (pr, v))) with pr.
      rewrite El, map_app in Ll. cbn [map] in Ll. apply Forall_app in Ll as [L1 L2]. inversion L2; subst.
      rewrite records_app; [lia|auto|auto|]. eapply Forall_impl; [|exact Lr]. cbn. intros. lia.
Qed.
End Trees.

(** ---------- histories ---------- *)
Section Hist.
Context {A : Type}.
Implicit Types t : tlist A.
Lemma inorder_app_elems (t : tree A) p q xs : inorder t = p ++ q -> elems t = xs -> xs = map (fun x => (fst x, snd (snd x))) p ++ map (fun x => (fst x, snd (snd x))) q.
Proof. intros E <-. rewrite <- inorder_elems, E. apply map_app. Qed.
Lemma insert_in t xs idx a v r t' : tgood t xs -> zlen xs < 2 ^ 32 - 1 -> 0 <= idx < 2 ^ 64 -> tlist_insert (Some a) t idx v = (r, t') ->
  (r = 0 /\ t' = t) \/
  (r = 1 /\ tseed t' = fst (mrand (tseed t)) /\ exists p q, inorder (troot t) = p ++ q /\ zlen p = idx /\ inorder (troot t') = p ++ (a, (snd (mrand (tseed t)), v)) :: q).
Proof.
  intros G L I. pose proof (tgood_size _ _ G) as Sz. destruct G as (E & C & H & L0). unfold tlist_insert. rewrite Sz.
  destruct (zlen xs <? idx) eqn:B; [intros [= <- <-]; auto|]. apply Z.ltb_ge in B. destruct (mrand (tseed t)) as [s p]. rewrite u32_id by lia. intros [= <- <-]. right. split; [reflexivity|]. cbn [tseed troot fst snd]. split; [reflexivity|].
  assert (S2 : size (tag (troot t)) = zlen xs) by (unfold size; rewrite tag_inorder, inorder_len; unfold size; now rewrite E).
  destruct (split_ok (tag (troot t)) idx 0 (tag_cok _ C) (tag_heap _ H)) as (x & y & Es & E1 & E2 & _); try lia.
  rewrite tag_split in Es. unfold insert. destruct (split (troot t) idx 0) as [t1 t2]. cbn [fst snd] in Es. injection Es as <- <-.
  exists (inorder t1), (inorder t2). rewrite !tag_inorder in E1. split; [congruence|]. split; [unfold size in E2; rewrite tag_inorder in E2; lia|].
  rewrite <- tag_inorder, !tag_merge, !merge_elems, !tag_inorder. cbn [inorder app]. rewrite <- app_assoc. reflexivity.
Qed.
Lemma delete_in t xs idx r fr t' : tgood t xs -> 0 <= idx < 2 ^ 64 -> tlist_delete t idx = Ret (r, fr, t') ->
  (r = 0 /\ t' = t) \/ (r = 1 /\ tseed t' = tseed t /\ exists p x q, inorder (troot t) = p ++ x :: q /\ zlen p = idx /\ inorder (troot t') = p ++ q /\ fr = [fst x]).
Proof.
  intros G I. pose proof G as G0. pose proof (tgood_size _ _ G) as Sz. destruct G as (E & C & H & L0). pose proof (zlen_nonneg xs) as N.
  destruct (delete_good t xs idx false G0 I) as [[B D]|(p0 & a0 & v0 & q0 & t0 & X1 & X2 & D & _)]; unfold tlist_delete; rewrite D; [intros [= <- <- <-]; auto|].
  intros [= <- <- <-]. right. split; [reflexivity|].
  unfold tlist_delete_impl in D. rewrite Sz in D. assert (B : idx < zlen xs) by (rewrite X1, X2; zl; pose proof (zlen_nonneg q0); lia). replace (zlen xs <=? idx) with false in D by lia. rewrite u32_id in D by lia.
  assert (Ln : zlen (inorder (troot t)) = zlen xs) by (rewrite inorder_len; unfold size; now rewrite E).
  destruct (inorder (troot t)) as [|y0 ys] eqn:Ey; [rewrite zlen_nil in Ln; lia|]. rewrite <- Ey in Ln.
  destruct (zsplit1' y0 idx (inorder (troot t))) as (p & q & E1 & E2); [lia|]. set (x := znth y0 (inorder (troot t)) idx) in *.
  assert (S2 : size (tag (troot t)) = zlen xs) by (unfold size; rewrite tag_inorder; exact Ln).
  destruct (remove_ok (tag (troot t)) idx 0 p x q (tag_cok _ C) (tag_heap _ H)) as (t1 & R & E3 & _); try lia; [now rewrite tag_inorder|].
  rewrite tag_remove in R. destruct (remove (troot t) idx 0) as [w| |]; try discriminate R. cbn [bind] in R, D. injection R as <-.
  assert (T0 : t0 = mkTl (tseed t) w) by congruence. subst t0. cbn [tseed troot]. split; [reflexivity|].
  exists p, x, q. split; [congruence|]. split; [exact E2|]. split; [now rewrite <- tag_inorder|].
  pose proof (inorder_elems (troot t)) as IE. rewrite E1, map_app in IE. cbn [map] in IE. rewrite E, X1 in IE.
  assert (Q : (fst x, snd (snd x)) = (a0, v0)). { apply app_mid in IE as (_ & Q & _); [exact Q|]. rewrite zlen_map. lia. } injection Q as -> _. reflexivity.
Qed.
Definition pinv (s0 : Z) (n : nat) t : Prop :=
  tseed t = seed_after n s0 /\ exists is, NoDup is /\ Forall (fun i => (i < n)%nat) is /\ map prio (inorder (troot t)) = map (fun i => prior_at i s0) is.
Lemma pinv_sub s0 n t is p x q : NoDup is -> Forall (fun i => (i < n)%nat) is -> map prio (p ++ x :: q) = map (fun i => prior_at i s0) is ->
  exists js, NoDup js /\ Forall (fun i => (i < n)%nat) js /\ map (@prio A) (p ++ q) = map (fun i => prior_at i s0) js.
Proof.
  clear t. intros N F E. rewrite map_app in E. cbn [map] in E. symmetry in E. apply map_eq_app in E as (j1 & j2 & -> & E1 & E2). destruct j2 as [|j j2]; [discriminate|]. cbn [map] in E2. injection E2 as _ E2.
  exists (j1 ++ j2). split; [eapply NoDup_remove_1; eauto|]. split; [apply Forall_app in F as [F1 F2]; inversion F2; apply Forall_app; auto|]. rewrite !map_app. now rewrite E1, E2.
Qed.
Lemma exec_pinv s0 n t xs o r t' : tgood t xs -> tvalid (tlist_getsize t) o -> pinv s0 n t -> texec t o = Ret (r, t') -> exists m, (m <= S n)%nat /\ pinv s0 m t'.
Proof.
  intros G V P X. unfold tlist_getsize in V. rewrite (tgood_size _ _ G) in V. pose proof (zlen_nonneg xs) as NN.
  assert (Ins : forall al idx v r t', zlen xs < 2 ^ 32 - 1 -> 0 <= idx < 2 ^ 64 -> tlist_insert al t idx v = (r, t') -> exists m, (m <= S n)%nat /\ pinv s0 m t').
  { clear o r t' V X. intros al idx v r t' L I D. destruct al as [a|].
    2:{ unfold tlist_insert in D. destruct (_ <? idx); injection D as _ <-; exists n; auto. }
    destruct (insert_in t xs idx a v r t' G L I D) as [[_ ->]|(_ & S1 & p & q & E1 & _ & E2)]; [exists n; auto|].
    destruct P as [Ps (is & N & F & E)]. exists (S n). split; [lia|]. split.
    { rewrite S1, Ps. replace (S n) with (n + 1)%nat by lia. now rewrite seed_after_add. }
    rewrite E1, map_app in E. symmetry in E. apply map_eq_app in E as (j1 & j2 & -> & F1 & F2). exists (j1 ++ n :: j2).
    split; [|split].
    - assert (NI : ~ In n (j1 ++ j2)) by (intros I0; rewrite Forall_forall in F; specialize (F n I0); lia).
      apply NoDup_cons with (x := n) in N; [|exact NI]. revert N. apply Permutation_NoDup. apply Permutation_middle.
    - apply Forall_app in F as [Fa Fb]. apply Forall_app. split; [|constructor; [lia|]]; eapply Forall_impl; try eassumption; cbn; intros; lia.
    - rewrite E2, !map_app. cbn [map]. rewrite F1, F2. unfold prio at 2. cbn [fst snd]. rewrite Ps. reflexivity. }
  destruct o as [al idx v|al v|idx| |idx|]; cbn [texec tvalid] in *.
  - destruct (tlist_insert al t idx v) as [r1 t1] eqn:D. injection X as _ <-. apply (Ins al idx v r1 t1); tauto.
  - unfold tlist_append in X. destruct (tlist_insert al t _ v) as [r1 t1] eqn:D. injection X as _ <-. rewrite (tgood_size _ _ G) in D. apply (Ins al (zlen xs) v r1 t1); lia || auto.
  - destruct (tlist_delete t idx) as [[[r1 fr] t1]| |] eqn:D; try discriminate X. cbn [bind] in X. injection X as _ <-.
    destruct (delete_in t xs idx r1 fr t1 G V D) as [[_ ->]|(_ & S1 & p & x & q & E1 & _ & E2 & _)]; [exists n; auto|]. destruct P as [Ps (is & N & F & E)]. exists n. split; [lia|]. split; [congruence|].
    rewrite E1 in E. rewrite E2. eapply pinv_sub; eauto.
  - injection X as _ <-. exists n. auto.
  - destruct (titem _) as [rr| |]; try discriminate X. cbn [bind] in X. injection X as _ <-. exists n. auto.
  - destruct (free_items_ok t xs G) as (t1 & D & G1). rewrite D in X. cbn [bind] in X. injection X as _ <-. exists n. split; [lia|].
    assert (Q : inorder (troot t1) = []). { destruct G1 as (E1 & _). apply zlen_0. rewrite inorder_len. unfold size. rewrite E1. reflexivity. }
    assert (Sd : tseed t1 = tseed t). {
      unfold tlist_free_items, tlist_free_items_impl in D. clear -D. revert D. generalize (S (Z.to_nat (cnt (troot t)))) as f. generalize (@nil Z) as acc. generalize (map fst xs) as out. intros out acc f. revert t acc.
      induction f as [|f IH]; intros t acc D; [discriminate|]. cbn [free_items_loop] in D. destruct (negb _); [|injection D as _ <-; reflexivity].
      destruct (tlist_delete_impl t 0 false) as [[[r1 fr] t2]| |] eqn:D2; try discriminate D. cbn [bind] in D. rewrite (IH _ _ D). unfold tlist_delete_impl in D2. destruct (_ <=? 0); [injection D2 as _ _ <-; reflexivity|].
      destruct (remove _ _ _); try discriminate D2. cbn [bind] in D2. injection D2 as _ _ <-. reflexivity. }
    split; [rewrite Sd; apply P|]. exists []. rewrite Q. repeat split; constructor.
Qed.
Lemma run_pinv s0 : forall h n t xs rs t', tgood t xs -> tcaller_ok t h -> pinv s0 n t -> trun t h = Ret (rs, t') -> exists m, (m <= n + length h)%nat /\ pinv s0 m t'.
Proof.
  induction h as [|o h IH]; intros n t xs rs t' G V P R; [injection R as _ <-; exists n; split; [cbn; lia|exact P]|].
  cbn [tcaller_ok trun] in *. destruct V as [V1 V2]. destruct (exec_good t xs o G V1) as (r & t1 & xs1 & E & _ & G1). rewrite E in *. cbn [bind] in R.
  destruct (exec_pinv s0 n t xs o r t1 G V1 P E) as (m & Lm & P1). destruct (trun t1 h) as [[rs2 t2]| |] eqn:R2; try discriminate R. cbn [bind] in R. injection R as _ <-.
  destruct (IH m t1 xs1 rs2 t2 G1 V2 P1 R2) as (k & Lk & P2). exists k. split; [cbn [length]; lia|exact P2].
Qed.
Lemma reach_good seed h t : reach seed h t -> exists xs, tgood t xs.
Proof. intros [V (rs & R)]. destruct (run_good h _ _ (init_good seed) V) as (rs' & t' & xs & E & _ & G & _). rewrite R in E. injection E as -> ->. eauto. Qed.
Lemma reach_distinct seed h t : 0 <= seed < 2 ^ 32 -> reach seed h t -> Z.of_nat (length h) <= 2 ^ 31 -> NoDup (map prio (inorder (troot t))).
Proof.
  intros S0 [V (rs & R)] L. assert (P0 : pinv seed 0 (mkTl seed Leaf)) by (split; [reflexivity|exists []; repeat split; constructor]).
  destruct (run_pinv seed h 0 _ _ rs t (init_good seed) V P0 R) as (m & Lm & _ & is & N & F & E). rewrite E. clear E.
  induction is as [|i is IH]; [constructor|]. cbn [map]. inversion N as [|? ? NI N']. inversion F as [|? ? Fi F']. subst. constructor; [|auto].
  intros I. apply in_map_iff in I as (j & Ej & Ij). assert (i <> j) by (intros ->; contradiction). rewrite Forall_forall in F'. specialize (F' j Ij).
  destruct (Nat.lt_gt_cases i j) as [Hl _]. destruct (Hl H) as [X|X]; [apply (prior_distinct i j seed S0 X); [lia|auto]|apply (prior_distinct j i seed S0 X); [lia|auto]].
Qed.
End Hist.
Lemma app_mid' {B} (p q u w : list B) x y : p ++ x :: q = u ++ y :: w -> zlen p = zlen u -> p = u /\ x = y /\ q = w.
Proof.
  revert u. induction p as [|a p IH]; intros [|b u] E L; rewrite ?zlen_nil, ?zlen_cons in L; try (pose proof (zlen_nonneg u); lia); try (pose proof (zlen_nonneg p); lia); cbn [app] in E.
  - injection E as -> ->. auto.
  - injection E as -> E. destruct (IH u E ltac:(lia)) as (-> & -> & ->). auto.
Qed.
