(** Proofs about tlist. *)
From Verif Require Import Base M_tlist S_tlist D_tlist.

Section P.
Context {A : Type}.
Implicit Types t l r : tree A.
Fixpoint elems (t : tree A) : list (Z * A) :=
  match t with Leaf => [] | Node a _ _ v l r => elems l ++ (a, v) :: elems r end.
Definition size t := zlen (elems t).
Fixpoint cok t : Prop :=
  match t with Leaf => True | Node _ _ c _ l r => c = u32 (size t) /\ cok l /\ cok r end.

Lemma size_node a p c v l r : size (Node a p c v l r) = size l + 1 + size r.
Proof. unfold size. cbn [elems]. zl. lia. Qed.
Lemma size_nn t : 0 <= size t.
Proof. apply zlen_nonneg. Qed.
Lemma cnt_ok t : cok t -> cnt t = u32 (size t).
Proof. destruct t; cbn; [reflexivity|tauto]. Qed.
Lemma u32_add3 a b : u32 (u32 a + u32 b + 1) = u32 (a + 1 + b).
Proof. unfold u32. rewrite (Z.add_mod (_ + _) 1), <- (Z.add_mod a b), (Z.add_mod_idemp_l (a + b)) by lia.
  rewrite Z.add_mod_idemp_r by lia. f_equal. ring. Qed.
Lemma upd_ok t : match t with Leaf => True | Node _ _ _ _ l r => cok l /\ cok r end -> cok (upd_cnt t).
Proof. destruct t as [|a p c v l r]; cbn [upd_cnt cok]; auto. intros [Hl Hr]. split; [|auto].
  rewrite (cnt_ok _ Hl), (cnt_ok _ Hr), u32_add3, size_node. reflexivity. Qed.
Lemma upd_elems t : elems (upd_cnt t) = elems t.
Proof. destruct t; reflexivity. Qed.
Lemma upd_le t b : prior_le b (upd_cnt t) <-> prior_le b t.
Proof. destruct t; reflexivity. Qed.
Lemma upd_heap t : heap_ordered (upd_cnt t) <-> heap_ordered t.
Proof. destruct t; reflexivity. Qed.
Lemma prior_le_trans b c t : prior_le b t -> b <= c -> prior_le c t.
Proof. destruct t; cbn [prior_le]; lia. Qed.

Lemma cok_upd_self t : cok t -> cok (upd_cnt t).
Proof. intros H. apply upd_ok. destruct t; cbn [cok] in H; tauto. Qed.
Lemma merge_eq l r : merge l r =
  match l, r with
  | Leaf, _ => upd_cnt r
  | _, Leaf => upd_cnt l
  | Node la lp lc lv ll lr, Node ra rp rc rv rl rr =>
      if rp <? lp then upd_cnt (Node la lp lc lv ll (merge lr r))
      else upd_cnt (Node ra rp rc rv (merge l rl) rr)
  end.
Proof. destruct l, r; reflexivity. Qed.
Lemma merge_elems : forall l r, elems (merge l r) = elems l ++ elems r.
Proof.
  induction l as [|la lp lc lv ll IHll lr IHlr]; intros r.
  { rewrite merge_eq, upd_elems. reflexivity. }
  induction r as [|ra rp rc rv rl IHrl rr IHrr].
  { rewrite merge_eq, upd_elems, app_nil_r. reflexivity. }
  rewrite merge_eq. destruct (rp <? lp); rewrite upd_elems; cbn [elems].
  - rewrite IHlr. cbn [elems]. rewrite <- !app_assoc. reflexivity.
  - rewrite IHrl. cbn [elems]. rewrite <- !app_assoc. reflexivity.
Qed.
Lemma merge_cok : forall l r, cok l -> cok r -> cok (merge l r).
Proof.
  induction l as [|la lp lc lv ll IHll lr IHlr]; intros r Hl.
  { intros Hr. rewrite merge_eq. now apply cok_upd_self. }
  induction r as [|ra rp rc rv rl IHrl rr IHrr]; intros Hr.
  { rewrite merge_eq. now apply cok_upd_self. }
  rewrite merge_eq. pose proof Hl as (_ & Hll & Hlr). pose proof Hr as (_ & Hrl & Hrr).
  destruct (rp <? lp); apply upd_ok; split; auto.
Qed.
Lemma merge_le b : forall l r, prior_le b l -> prior_le b r -> prior_le b (merge l r).
Proof.
  intros l r. rewrite merge_eq. destruct l, r; rewrite ?upd_le; auto.
  destruct (_ <? _); rewrite upd_le; cbn [prior_le]; auto.
Qed.
Lemma merge_heap : forall l r, heap_ordered l -> heap_ordered r -> heap_ordered (merge l r).
Proof.
  induction l as [|la lp lc lv ll IHll lr IHlr]; intros r Hl.
  { intros Hr. rewrite merge_eq. now apply upd_heap. }
  induction r as [|ra rp rc rv rl IHrl rr IHrr]; intros Hr.
  { rewrite merge_eq. now apply upd_heap. }
  rewrite merge_eq. pose proof Hl as (Bll & Blr & Hll & Hlr). pose proof Hr as (Brl & Brr & Hrl & Hrr).
  destruct (rp <? lp) eqn:E; apply upd_heap; cbn [heap_ordered].
  - apply Z.ltb_lt in E. repeat split; auto. apply merge_le; [auto|cbn [prior_le]; lia].
  - apply Z.ltb_ge in E. repeat split; auto. apply merge_le; [cbn [prior_le]; lia|auto].
Qed.

Lemma zlen_split (p q : list (Z * A)) t : p ++ q = elems t -> zlen p + zlen q = size t.
Proof. intros H. unfold size. rewrite <- H. zl. lia. Qed.
Lemma split_ok : forall t key add, cok t -> heap_ordered t -> 0 <= add -> add + size t < 2 ^ 32 -> add <= key <= add + size t ->
  exists x y, split t key add = (x, y) /\ elems x ++ elems y = elems t /\ size x = key - add /\
    cok x /\ cok y /\ heap_ordered x /\ heap_ordered y /\ (forall b, prior_le b t -> prior_le b x /\ prior_le b y).
Proof.
  induction t as [|a p c v l IHl r IHr]; intros key add C H Ha Hs Hk.
  { unfold size in *. cbn [elems] in *. rewrite zlen_nil in *. exists Leaf, Leaf. cbn. repeat split; auto. lia. }
  rewrite size_node in *. destruct C as (_ & Cl & Cr). destruct H as (Bl & Br & Hl & Hr).
  pose proof (size_nn l) as Nl. pose proof (size_nn r) as Nr.
  cbn [split]. rewrite (cnt_ok _ Cl), (u32_id (size l)) by lia. rewrite (u32_id (add + size l)) by lia. 
  destruct (key <=? add + size l) eqn:E.
  - apply Z.leb_le in E. destruct (IHl key add Cl Hl) as (x & y & -> & E1 & E2 & C1 & C2 & H1 & H2 & B); try lia.
    eexists _, _. split; [reflexivity|]. split; [rewrite upd_elems; cbn [elems]; now rewrite <- E1, <- app_assoc|].
    split; [exact E2|]. split; [exact C1|]. split; [apply upd_ok; auto|]. split; [exact H1|].
    split; [apply upd_heap; cbn [heap_ordered]; destruct (B p Bl); auto|]. intros b Hb. split.
    + apply prior_le_trans with p; [destruct (B p Bl); auto|exact Hb].
    + apply upd_le. exact Hb.
  - apply Z.leb_gt in E. rewrite u32_id by lia.
    destruct (IHr key (add + 1 + size l) Cr Hr) as (x & y & -> & E1 & E2 & C1 & C2 & H1 & H2 & B); try lia.
    eexists _, _. split; [reflexivity|]. split; [rewrite upd_elems; cbn [elems]; now rewrite <- E1, <- app_assoc|].
    split. { unfold size. rewrite upd_elems. fold (size (Node a p c v l x)). rewrite size_node. lia. }
    split; [apply upd_ok; auto|]. split; [exact C2|]. split; [apply upd_heap; cbn [heap_ordered]; destruct (B p Br); auto|].
    split; [exact H2|]. intros b Hb. split.
    + apply upd_le. exact Hb.
    + apply prior_le_trans with p; [destruct (B p Br); auto|exact Hb].
Qed.

Lemma getitem_ok : forall t idx add d, cok t -> 0 <= add -> add + size t < 2 ^ 32 -> add <= idx < add + size t ->
  getitem t idx add = Some (znth d (elems t) (idx - add)).
Proof.
  induction t as [|a p c v l IHl r IHr]; intros idx add d C Ha Hs Hk.
  { unfold size in *. cbn [elems] in *. rewrite zlen_nil in *. lia. }
  rewrite size_node in *. destruct C as (_ & Cl & Cr).
  pose proof (size_nn l) as Nl. pose proof (size_nn r) as Nr.
  cbn [getitem elems]. rewrite (cnt_ok _ Cl), (u32_id (size l)) by lia. rewrite (u32_id (add + size l)) by lia.
  destruct (add + size l =? idx) eqn:E1.
  - apply Z.eqb_eq in E1. replace (idx - add) with (zlen (elems l)) by (unfold size in *; lia). now rewrite znth_app_exact.
  - apply Z.eqb_neq in E1. destruct (add + size l <? idx) eqn:E2.
    + apply Z.ltb_lt in E2. rewrite u32_id by lia. rewrite (IHr _ _ d) by (auto; lia). f_equal.
      rewrite znth_app2 by (fold (size l); lia). fold (size l). replace (idx - add - size l) with (idx - (add + 1 + size l) + 1) by ring.
      rewrite znth_consS by lia. f_equal. lia.
    + apply Z.ltb_ge in E2. rewrite (IHl _ _ d) by (auto; lia). f_equal. rewrite znth_app1; [reflexivity|]. fold (size l). lia.
Qed.
(** out of range on the right: NULL *)
Lemma getitem_none : forall t idx add, cok t -> 0 <= add -> add + size t < 2 ^ 32 -> add + size t <= idx -> getitem t idx add = None.
Proof.
  induction t as [|a p c v l IHl r IHr]; intros idx add C Ha Hs Hk; [reflexivity|].
  rewrite size_node in *. destruct C as (_ & Cl & Cr).
  pose proof (size_nn l) as Nl. pose proof (size_nn r) as Nr.
  cbn [getitem]. rewrite (cnt_ok _ Cl), (u32_id (size l)) by lia. rewrite (u32_id (add + size l)) by lia.
  destruct (add + size l =? idx) eqn:E1; [lia|]. destruct (add + size l <? idx) eqn:E2; [|lia].
  rewrite u32_id by lia. apply IHr; auto; lia.
Qed.

Lemma app_mid (p q u w : list (Z * A)) x y : p ++ x :: q = u ++ y :: w -> zlen p = zlen u -> p = u /\ x = y /\ q = w.
Proof.
  revert u. induction p as [|p0 p IH]; intros [|u0 u] H L.
  - cbn in H. injection H. auto.
  - rewrite zlen_nil, zlen_cons in L. pose proof (zlen_nonneg u). lia.
  - rewrite zlen_nil, zlen_cons in L. pose proof (zlen_nonneg p). lia.
  - cbn in H. injection H as -> H. rewrite !zlen_cons in L. destruct (IH u H) as (-> & -> & ->); [lia|]. auto.
Qed.
Lemma split_right (p q u w : list (Z * A)) x y : p ++ x :: q = u ++ y :: w -> zlen u < zlen p ->
  exists p', p = u ++ y :: p' /\ w = p' ++ x :: q.
Proof.
  revert p. induction u as [|u0 u IH]; intros [|p0 p] H L; rewrite ?zlen_nil, ?zlen_cons in L.
  - lia.
  - cbn in H. injection H as -> H. exists p. auto.
  - pose proof (zlen_nonneg u); lia.
  - cbn in H. injection H as -> H. destruct (IH p H) as (p' & -> & ->); [lia|]. exists p'. auto.
Qed.
Lemma split_left (p q u w : list (Z * A)) x y : p ++ x :: q = u ++ y :: w -> zlen p < zlen u ->
  exists q', u = p ++ x :: q' /\ q = q' ++ y :: w.
Proof. intros H L. destruct (split_right u w p q y x (eq_sym H) L) as (q' & -> & ->). exists q'. auto. Qed.

Lemma remove_ok : forall t idx add p x q, cok t -> heap_ordered t -> 0 <= add -> add + size t < 2 ^ 32 ->
  elems t = p ++ x :: q -> idx = add + zlen p ->
  exists t', remove t idx add = Ret t' /\ elems t' = p ++ q /\ cok t' /\ heap_ordered t' /\ (forall b, prior_le b t -> prior_le b t').
Proof.
  induction t as [|a pr c v l IHl r IHr]; intros idx add p x q C H Ha Hs E Hi.
  { cbn [elems] in E. destruct p; discriminate. }
  assert (SZ : zlen p + 1 + zlen q = size l + 1 + size r).
  { rewrite <- (size_node a pr c v l r). unfold size. rewrite E. zl. lia. }
  cbn [elems] in E.
  rewrite size_node in *. destruct C as (_ & Cl & Cr). destruct H as (Bl & Br & Hl & Hr).
  pose proof (size_nn l) as Nl. pose proof (size_nn r) as Nr. pose proof (zlen_nonneg p) as Np. pose proof (zlen_nonneg q) as Nq.
  cbn [remove]. rewrite (cnt_ok _ Cl), (u32_id (size l)) by lia. rewrite (u32_id (add + size l)) by lia. rewrite (u32_id (add + size l + 1)) by lia.
  destruct (add + size l =? idx) eqn:E1.
  { apply Z.eqb_eq in E1. destruct (app_mid _ _ _ _ _ _ E) as (E2 & _ & E3). { fold (size l). lia. }
    eexists. split; [reflexivity|]. rewrite merge_elems, E2, E3. split; [reflexivity|]. split; [apply merge_cok; auto|].
    split; [apply merge_heap; auto|]. intros b Hb. apply merge_le; eapply prior_le_trans; eauto. }
  apply Z.eqb_neq in E1.
  destruct ((match l with Leaf => UINT_MAX | Node _ _ _ _ ll _ => u32 (cnt ll + add) end) =? idx) eqn:E2.
  { apply Z.eqb_eq in E2. destruct l as [|la lp lc lv ll lr]. { unfold UINT_MAX in E2. lia. }
    rewrite size_node in *. destruct Cl as (_ & Cll & Clr). destruct Hl as (Bll & Blr & Hll & Hlr).
    pose proof (size_nn ll) as Nll. pose proof (size_nn lr) as Nlr.
    rewrite (cnt_ok _ Cll), (u32_id (size ll)), u32_id in E2 by lia.
    cbn [elems] in E. rewrite <- app_assoc in E. cbn [app] in E. symmetry in E.
    destruct (app_mid _ _ _ _ _ _ E) as (E3 & _ & E4). { fold (size ll). lia. }
    eexists. split; [reflexivity|]. rewrite upd_elems. cbn [elems]. rewrite merge_elems, E3, E4, <- app_assoc.
    split; [reflexivity|]. split; [apply upd_ok; split; auto; apply merge_cok; auto|].
    split; [apply upd_heap; cbn [heap_ordered]; repeat split; auto|].
    - cbn [prior_le] in Bl. apply merge_le; eapply prior_le_trans; eauto.
    - apply merge_heap; auto.
    - intros b Hb. apply upd_le. exact Hb. }
  clear E2.
  destruct ((match r with Leaf => UINT_MAX | Node _ _ _ _ rl _ => u32 (cnt rl + (add + size l + 1)) end) =? idx) eqn:E2.
  { apply Z.eqb_eq in E2. destruct r as [|ra rp rc rv rl rr]. { unfold UINT_MAX in E2. lia. }
    rewrite size_node in *. destruct Cr as (_ & Crl & Crr). destruct Hr as (Brl & Brr & Hrl & Hrr).
    pose proof (size_nn rl) as Nrl. pose proof (size_nn rr) as Nrr.
    rewrite (cnt_ok _ Crl), (u32_id (size rl)), u32_id in E2 by lia.
    cbn [elems] in E. symmetry in E.
    assert (E' : p ++ x :: q = (elems l ++ (a, v) :: elems rl) ++ (ra, rv) :: elems rr). { rewrite E, <- app_assoc. reflexivity. }
    destruct (app_mid _ _ _ _ _ _ E') as (E3 & _ & E4). { zl. fold (size l) (size rl). lia. }
    eexists. split; [reflexivity|]. rewrite upd_elems. cbn [elems]. rewrite merge_elems, E3, E4, <- app_assoc.
    split; [reflexivity|]. split; [apply upd_ok; split; auto; apply merge_cok; auto|].
    split; [apply upd_heap; cbn [heap_ordered]; repeat split; auto|].
    - cbn [prior_le] in Br. apply merge_le; eapply prior_le_trans; eauto.
    - apply merge_heap; auto.
    - intros b Hb. apply upd_le. exact Hb. }
  clear E2.
  destruct (add + size l <? idx) eqn:E2.
  - apply Z.ltb_lt in E2. symmetry in E. destruct (split_right _ _ _ _ _ _ E) as (p' & -> & E4). { fold (size l). lia. }
    rewrite zlen_app, zlen_cons in *. fold (size l) in *.
    destruct (IHr idx (add + size l + 1) p' x q) as (r' & -> & E5 & C5 & H5 & B5); auto; try lia.
    eexists. split; [reflexivity|]. rewrite upd_elems. cbn [elems]. rewrite E5, <- app_assoc. split; [reflexivity|].
    split; [apply upd_ok; auto|]. split; [apply upd_heap; cbn [heap_ordered]; auto|]. intros b Hb. apply upd_le. exact Hb.
  - apply Z.ltb_ge in E2. symmetry in E. destruct (split_left _ _ _ _ _ _ E) as (q' & E3 & ->). { fold (size l). lia. }
    destruct (IHl idx add p x q') as (l' & -> & E5 & C5 & H5 & B5); auto; try lia.
    eexists. split; [reflexivity|]. rewrite upd_elems. cbn [elems]. rewrite E5, <- app_assoc. split; [reflexivity|].
    split; [apply upd_ok; auto|]. split; [apply upd_heap; cbn [heap_ordered]; auto|]. intros b Hb. apply upd_le. exact Hb.
Qed.

Lemma nodes_size t : nodes t = size t.
Proof. induction t as [|a p c v l IHl r IHr]; [reflexivity|]. rewrite size_node. cbn [nodes]. lia. Qed.
Lemma counts_of t : cok t -> size t < 2 ^ 32 -> counts_exact t.
Proof.
  induction t as [|a p c v l IHl r IHr]; [easy|]. rewrite size_node. intros (C & Cl & Cr) L. rewrite size_node in C.
  pose proof (size_nn l). pose proof (size_nn r). rewrite u32_id in C by lia. cbn [counts_exact nodes]. rewrite !nodes_size.
  split; [exact C|]. split; [apply IHl|apply IHr]; auto; lia.
Qed.

End P.

Section Q.
Context {A : Type}.
Implicit Types t : tlist A.
Definition tgood (t : tlist A) (xs : list (Z * A)) : Prop :=
  elems (troot t) = xs /\ cok (troot t) /\ heap_ordered (troot t) /\ zlen xs < 2 ^ 32.
Lemma tgood_size t xs : tgood t xs -> cnt (troot t) = zlen xs.
Proof. intros (E & C & _ & L). rewrite (cnt_ok _ C). unfold size. rewrite E. pose proof (zlen_nonneg xs). apply u32_id. lia. Qed.
Lemma zsplit1' {B} (d : B) n l : 0 <= n < zlen l -> exists p q, l = p ++ znth d l n :: q /\ zlen p = n.
Proof. intros H. exists (ztake n l), (zdrop (n + 1) l). split; [now apply zsplit1|]. rewrite zlen_ztake; lia. Qed.
Lemma insert_good al t xs idx v : tgood t xs -> zlen xs < 2 ^ 32 - 1 -> 0 <= idx < 2 ^ 64 ->
  exists r t' xs', tlist_insert al t idx v = (r, t') /\ tspec xs (TIns al idx v) (TInt r []) xs' /\ tgood t' xs'.
Proof.
  intros G L I. pose proof (tgood_size _ _ G) as S. destruct G as (E & C & H & L0). pose proof (zlen_nonneg xs) as N.
  unfold tlist_insert. rewrite S. destruct (zlen xs <? idx) eqn:B.
  { apply Z.ltb_lt in B. exists 0, t, xs. split; [reflexivity|]. split; [apply TsInsBad; auto|]. repeat split; auto. }
  apply Z.ltb_ge in B. destruct al as [a|].
  2:{ exists 0, t, xs. split; [reflexivity|]. split; [apply TsInsOom|]. repeat split; auto. }
  destruct (mrand (tseed t)) as [s p]. rewrite u32_id by lia.
  assert (SZ : size (troot t) = zlen xs) by (unfold size; now rewrite E).
  unfold insert. destruct (split_ok (troot t) idx 0 C H) as (x & y & -> & E1 & E2 & C1 & C2 & H1 & H2 & _); try lia.
  assert (X : elems (merge (merge x (Node a p 1 v Leaf Leaf)) y) = elems x ++ (a, v) :: elems y).
  { rewrite !merge_elems, <- app_assoc. reflexivity. }
  assert (XS : xs = elems x ++ elems y) by congruence.
  eexists _, _, (elems x ++ (a, v) :: elems y). split; [reflexivity|]. split.
  - rewrite XS. replace idx with (zlen (elems x)) by (unfold size in E2; lia). apply TsIns.
  - split; [exact X|]. split; [|split].
    + apply merge_cok; auto. apply merge_cok; auto. cbn [cok]. auto.
    + apply merge_heap; auto. apply merge_heap; auto. cbn. auto.
    + rewrite XS in L. revert L. zl. lia.
Qed.
Lemma delete_good t xs idx deep : tgood t xs -> 0 <= idx < 2 ^ 64 ->
  (zlen xs <= idx /\ tlist_delete_impl t idx deep = Ret (0, [], t)) \/
  (exists p a v q t', xs = p ++ (a, v) :: q /\ idx = zlen p /\
     tlist_delete_impl t idx deep = Ret (1, if deep then [a + 24; a] else [a], t') /\ tgood t' (p ++ q)).
Proof.
  intros G I. pose proof (tgood_size _ _ G) as S. destruct G as (E & C & H & L0). pose proof (zlen_nonneg xs) as N.
  unfold tlist_delete_impl. rewrite S. destruct (zlen xs <=? idx) eqn:B; [left; split; [lia|reflexivity]|].
  right. apply Z.leb_gt in B. rewrite u32_id by lia.
  assert (SZ : size (troot t) = zlen xs) by (unfold size; now rewrite E).
  destruct xs as [|x0 xs0] eqn:EX. { rewrite zlen_nil in *. lia. } rewrite <- EX in *.
  destruct (zsplit1' x0 idx xs) as (p & q & E1 & E2); [lia|].
  rewrite (getitem_ok _ _ _ x0 C) by lia. rewrite E. replace (idx - 0) with idx by ring.
  destruct (znth x0 xs idx) as [a v] eqn:Ev.
  destruct (remove_ok (troot t) idx 0 p (a, v) q C H) as (t' & -> & E3 & C3 & H3 & _); try lia; [congruence|].
  exists p, a, v, q. eexists. split; [exact E1|]. split; [lia|]. split.
  - destruct deep; reflexivity.
  - split; [exact E3|]. split; [exact C3|]. split; [exact H3|]. rewrite E1 in L0. revert L0. zl. lia.
Qed.
Lemma free_loop deep : forall fuel t xs fr, tgood t xs -> (length xs < fuel)%nat ->
  exists t', free_items_loop fuel t deep fr = Ret (fr ++ concat (map (fun x => if deep then [fst x + 24; fst x] else [fst x]) xs), t') /\ tgood t' [].
Proof.
  induction fuel as [|fuel IH]; intros t xs fr G L; [lia|].
  cbn [free_items_loop]. rewrite (tgood_size _ _ G). destruct xs as [|[a v] xs].
  - rewrite zlen_nil. cbn [negb Z.eqb]. exists t. rewrite app_nil_r. split; [reflexivity|exact G].
  - rewrite zlen_cons. pose proof (zlen_nonneg xs). replace (zlen xs + 1 =? 0) with false by (symmetry; apply Z.eqb_neq; lia).
    replace (1 + zlen xs =? 0) with false by (symmetry; apply Z.eqb_neq; lia). cbn [negb].
    destruct (delete_good t ((a, v) :: xs) 0 deep G) as [[X _]|(p & a' & v' & q & t' & E1 & E2 & -> & G')]; [lia|rewrite zlen_cons in X; lia|].
    symmetry in E2. apply zlen_0 in E2. subst p. cbn [app] in *. injection E1 as <- <- <-.
    cbn [bind]. destruct (IH t' xs (fr ++ (if deep then [a + 24; a] else [a])) G') as (t'' & E3 & G''). { cbn [length] in L. lia. }
    exists t''. rewrite E3. split; [|exact G'']. f_equal. f_equal. cbn [map concat fst]. now rewrite <- app_assoc.
Qed.
Lemma concat1 {B C} (f : B -> C) l : concat (map (fun x => [f x]) l) = map f l.
Proof. induction l; cbn; congruence. Qed.
Lemma free_items_ok t xs : tgood t xs -> exists t', tlist_free_items t = Ret (map fst xs, t') /\ tgood t' [].
Proof.
  intros G. unfold tlist_free_items, tlist_free_items_impl. rewrite (tgood_size _ _ G). pose proof (zlen_nonneg xs).
  destruct (free_loop false (S (Z.to_nat (zlen xs))) t xs [] G) as (t' & -> & G'). { unfold zlen. lia. }
  exists t'. split; [|exact G']. cbn [app]. now rewrite concat1.
Qed.
Lemma get_good t xs idx d : tgood t xs -> 0 <= idx < zlen xs -> tlist_get t idx = (fst (znth d xs idx) + 24, Some (snd (znth d xs idx))).
Proof.
  intros (E & C & H & L) I. unfold tlist_get. rewrite u32_id by lia.
  assert (SZ : size (troot t) = zlen xs) by (unfold size; now rewrite E).
  rewrite (getitem_ok _ _ _ d C) by lia. rewrite E, Z.sub_0_r. destruct (znth d xs idx). reflexivity.
Qed.
Lemma exec_good t xs o : tgood t xs -> tvalid (tlist_getsize t) o ->
  exists r t' xs', texec t o = Ret (r, t') /\ tspec xs o r xs' /\ tgood t' xs'.
Proof.
  intros G V. unfold tlist_getsize in V. rewrite (tgood_size _ _ G) in V. pose proof (zlen_nonneg xs) as N.
  destruct o as [al idx v|al v|idx| |idx|]; cbn [texec tvalid] in *.
  - destruct (insert_good al t xs idx v G) as (r & t' & xs' & E & S & G'); try tauto.
    rewrite E. eexists _, _, _. eauto.
  - unfold tlist_append. rewrite (tgood_size _ _ G).
    destruct (insert_good al t xs (zlen xs) v G) as (r & t' & xs' & E & S & G'); try lia.
    rewrite E. eexists _, _, xs'. split; [reflexivity|]. split; [|exact G'].
    inversion S as [p q a0 v0 EQ1 EQ2 EQ3 EQ4|l0 i0 v0|l0 al0 i0 v0 LT EQ1| | | | | | |]; subst; try (constructor; fail); try lia.
    assert (Q : zlen q = 0) by (rewrite zlen_app in *; lia). apply zlen_0 in Q. subst q. rewrite app_nil_r. apply TsApp.
  - destruct (delete_good t xs idx false G V) as [[L E]|(p & a & v & q & t' & -> & -> & E & G')]; unfold tlist_delete; rewrite E.
    + eexists _, _, xs. split; [reflexivity|]. split; [now apply TsDelBad|exact G].
    + eexists _, _, (p ++ q). split; [reflexivity|]. split; [apply TsDel|exact G'].
  - exists (TInt (zlen xs) []), t, xs. unfold tlist_getsize. rewrite (tgood_size _ _ G). split; [reflexivity|]. split; [constructor|exact G].
  - destruct xs as [|x0 xs0] eqn:EX. { change (0 <= idx < 0) in V. lia. } rewrite <- EX in *.
    rewrite (get_good t xs idx x0 G V). destruct (zsplit1' x0 idx xs V) as (p & q & E1 & E2).
    destruct (znth x0 xs idx) as [a v]. cbn [fst snd titem bind]. exists (TItem a v), t, xs.
    split; [f_equal; f_equal; f_equal; lia|]. split; [|exact G]. rewrite E1. replace idx with (zlen p) by lia. apply TsGet.
  - destruct (free_items_ok t xs G) as (t' & -> & G'). eexists _, _, []. split; [reflexivity|]. split; [constructor|exact G'].
Qed.
Lemma run_good : forall h t xs, tgood t xs -> tcaller_ok t h ->
  exists rs t' xs', trun t h = Ret (rs, t') /\ tspec_run xs rs xs' /\ tgood t' xs' /\ map fst rs = h.
Proof.
  induction h as [|o h IH]; intros t xs G V.
  - exists [], t, xs. repeat split; auto; try constructor; apply G.
  - cbn [tcaller_ok trun] in *. destruct V as [V1 V2].
    destruct (exec_good t xs o G V1) as (r & t1 & xs1 & E & S & G1). rewrite E in *. cbn [bind].
    destruct (IH t1 xs1 G1 V2) as (rs & t2 & xs2 & E2 & S2 & G2 & M). rewrite E2. cbn [bind].
    exists ((o, r) :: rs), t2, xs2. split; [reflexivity|]. split; [econstructor; eauto|]. split; [exact G2|]. cbn [map fst]. now rewrite M.
Qed.
Lemma init_good seed : tgood (mkTl seed Leaf) [].
Proof. repeat split; cbn; auto. Qed.
Lemma history seed h : tcaller_ok (mkTl seed Leaf) h ->
  exists rs t xs, trun (mkTl seed Leaf) h = Ret (rs, t) /\ tspec_run [] rs xs /\ treads t xs /\ map fst rs = h.
Proof.
  intros V. destruct (run_good h _ _ (init_good seed) V) as (rs & t & xs & E & S & G & M). exists rs, t, xs.
  repeat split; auto; [apply (tgood_size _ _ G)|]. intros. now apply get_good.
Qed.
Lemma shape seed h rs t : tcaller_ok (mkTl seed Leaf) h -> trun (mkTl seed Leaf) h = Ret (rs, t) ->
  counts_exact (troot t) /\ heap_ordered (troot t).
Proof.
  intros V R. destruct (run_good h _ _ (init_good seed) V) as (rs' & t' & xs & E & S & (G1 & G2 & G3 & G4) & M).
  rewrite R in E. injection E as -> ->. split; [|exact G3]. apply counts_of; [exact G2|]. unfold size. now rewrite G1.
Qed.
Lemma free_hist seed h rs t self : tcaller_ok (mkTl seed Leaf) h -> trun (mkTl seed Leaf) h = Ret (rs, t) ->
  exists xs, tspec_run [] rs xs /\ tlist_free self t = Ret (map fst xs ++ [self]).
Proof.
  intros V R. destruct (run_good h _ _ (init_good seed) V) as (rs' & t' & xs & E & S & G & M).
  rewrite R in E. injection E as -> ->. exists xs. split; [exact S|].
  destruct (free_items_ok _ _ G) as (t1 & E & _). unfold tlist_free. unfold tlist_free_items in E. rewrite E. reflexivity.
Qed.
Lemma get_oob seed h rs t idx : tcaller_ok (mkTl seed Leaf) h -> trun (mkTl seed Leaf) h = Ret (rs, t) ->
  tlist_getsize t <= idx < 2 ^ 32 -> tlist_get t idx = (24, None).
Proof.
  intros V R I. destruct (run_good h _ _ (init_good seed) V) as (rs' & t' & xs & E & S & G & M).
  rewrite R in E. injection E as -> ->. unfold tlist_getsize in I. rewrite (tgood_size _ _ G) in I.
  destruct G as (E1 & C & H & L). pose proof (zlen_nonneg xs). unfold tlist_get. rewrite u32_id by lia.
  rewrite getitem_none; auto; unfold size; rewrite ?E1; lia.
Qed.
Lemma deep_hist seed h rs t p a v q : tcaller_ok (mkTl seed Leaf) h -> trun (mkTl seed Leaf) h = Ret (rs, t) ->
  tspec_run [] rs (p ++ (a, v) :: q) -> treads t (p ++ (a, v) :: q) ->
  exists t', tlist_delete_deep t (zlen p) = Ret (1, [a + 24; a], t') /\ treads t' (p ++ q).
Proof.
  intros V R SR TR. destruct (run_good h _ _ (init_good seed) V) as (rs' & t' & xs & E & S & G & M).
  rewrite R in E. injection E as -> ->.
  assert (X : xs = p ++ (a, v) :: q).
  { destruct TR as [T1 T2]. unfold tlist_getsize in T1. rewrite (tgood_size _ _ G) in T1. apply (znth_ext (0, v)); [exact T1|].
    intros i I. specialize (T2 i (0, v)). rewrite <- T1 in T2. specialize (T2 I). rewrite (get_good _ _ _ (0, v) G I) in T2.
    destruct (znth (0, v) xs i), (znth (0, v) (p ++ (a, v) :: q) i). cbn [fst snd] in T2. injection T2 as T2 ->. f_equal. lia. }
  subst xs. pose proof (zlen_nonneg p). pose proof (zlen_nonneg q).
  destruct (delete_good t' _ (zlen p) true G) as [[L _]|(p' & a' & v' & q' & t1 & E1 & E2 & E3 & G1)].
  { destruct G as (_ & _ & _ & L). revert L. zl. lia. }
  { revert L. zl. lia. }
  destruct (app_mid _ _ _ _ _ _ E1 E2) as (-> & E4 & ->). injection E4 as -> ->.
  exists t1. split; [exact E3|]. split; [apply (tgood_size _ _ G1)|]. intros. now apply get_good.
Qed.
End Q.
