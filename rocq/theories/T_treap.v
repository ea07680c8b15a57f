(** C112: the shape of tlist's tree. *)
From Verif Require Import Base M_tlist S_tlist D_tlist P_tlist P_mrand M_tlcost S_treap D_treap P_treap.

(** the tree is the Cartesian tree of its items: the item with the greatest priority is the root, and so on
    below; the items are those of the list *)
Theorem c112_cartesian A seed (h : list (top A)) t : reach seed h t ->
  cartesian prio (inorder (troot t)) (erase (troot t)) /\ treads t (map (fun x => (fst x, snd (snd x))) (inorder (troot t))).
Proof.
  intros R. destruct (reach_good _ _ _ R) as (xs & G). pose proof G as (E & C & H & L). split; [now apply heap_cartesian|]. rewrite inorder_elems, E.
  split; [apply (tgood_size _ _ G)|]. intros i d I. now apply get_good.
Qed.
(** within 2^31 calls no two items of a list have the same priority *)
Theorem c112_distinct A seed (h : list (top A)) t : 0 <= seed < 2 ^ 32 -> reach seed h t -> Z.of_nat (length h) <= 2 ^ 31 -> NoDup (map prio (inorder (troot t))).
Proof. exact (reach_distinct seed h t). Qed.
(** then the order of the calls leaves no trace: the same items with the same priorities, the same tree *)
Theorem c112_unique A seed (h : list (top A)) t seed' h' t' : 0 <= seed < 2 ^ 32 -> reach seed h t -> Z.of_nat (length h) <= 2 ^ 31 -> reach seed' h' t' ->
  inorder (troot t) = inorder (troot t') -> troot t = troot t'.
Proof.
  intros S R L R' E. destruct (reach_good _ _ _ R) as (xs & _ & C & H & _). destruct (reach_good _ _ _ R') as (xs' & _ & C' & H' & _).
  apply tree_unique; auto. eapply reach_distinct; eauto.
Qed.
(** inserting an item and deleting it again gives back the very same tree *)
Theorem c112_insert_delete A seed (h : list (top A)) t idx a v t1 : 0 <= seed < 2 ^ 32 -> reach seed h t -> Z.of_nat (length h) <= 2 ^ 31 -> tlist_getsize t < 2 ^ 32 - 1 ->
  0 <= idx <= tlist_getsize t -> tlist_insert (Some a) t idx v = (1, t1) -> exists t2, tlist_delete t1 idx = Ret (1, [a], t2) /\ troot t2 = troot t.
Proof.
  intros S R L B I D. destruct (reach_good _ _ _ R) as (xs & G). unfold tlist_getsize in *. rewrite (tgood_size _ _ G) in *.
  destruct (insert_good (Some a) t xs idx v G B ltac:(lia)) as (r & t' & xs' & E & Sp & G'). rewrite D in E. injection E as <- <-.
  destruct (insert_in t xs idx a v 1 t1 G B ltac:(lia) D) as [[X _]|(_ & _ & p & q & E1 & Lp & E2)]; [discriminate|].
  destruct (delete_good t1 xs' idx false G' ltac:(lia)) as [[X _]|(p0 & a0 & v0 & q0 & t2 & X1 & X2 & X3 & G2)].
  { exfalso. destruct G' as (Ee & _). rewrite <- Ee, <- inorder_elems, zlen_map, E2 in X. revert X. zl. pose proof (zlen_nonneg q). lia. }
  destruct (delete_in t1 xs' idx 1 [a0] t2 G' ltac:(lia) X3) as [[X _]|(_ & _ & p2 & x & q2 & F1 & Lp2 & F2 & Fr)]; [discriminate|].
  rewrite E2 in F1. apply app_mid' in F1 as (<- & <- & <-); [|lia]. injection Fr as ->. exists t2. split; [exact X3|].
  destruct G as (_ & C & H & _), G2 as (_ & C2 & H2 & _). symmetry. apply tree_unique; auto; [eapply reach_distinct; eauto|congruence].
Qed.
(** deleting two items in either order gives the same tree *)
Theorem c112_delete_two A seed (h : list (top A)) t i j fi fj ti tj t1 t2 fi' fj' : 0 <= seed < 2 ^ 32 -> reach seed h t -> Z.of_nat (length h) <= 2 ^ 31 ->
  0 <= i < j -> j < tlist_getsize t ->
  tlist_delete t i = Ret (1, fi, ti) -> tlist_delete ti (j - 1) = Ret (1, fj, t1) ->
  tlist_delete t j = Ret (1, fj', tj) -> tlist_delete tj i = Ret (1, fi', t2) -> t1 = t2 /\ fi = fi' /\ fj = fj'.
Proof.
  intros S R L I J Di Dij Dj Dji. destruct (reach_good _ _ _ R) as (xs & G). unfold tlist_getsize in *. rewrite (tgood_size _ _ G) in *. assert (B : zlen xs < 2 ^ 32) by apply G.
  assert (Next : forall (t : tlist A) xs k f t', tgood t xs -> 0 <= k < 2 ^ 32 -> tlist_delete t k = Ret (1, f, t') -> exists xs', tgood t' xs').
  { clear. intros t xs k f t' G K D. destruct (delete_good t xs k false G ltac:(lia)) as [[_ X]|(p & a & v & q & t2 & _ & _ & X & G2)]; unfold tlist_delete in D; rewrite X in D; [discriminate|]. injection D as _ <-. eauto. }
  assert (Ri : 0 <= i < 2 ^ 32) by lia. assert (Rj : 0 <= j < 2 ^ 32) by lia. assert (Rk : 0 <= j - 1 < 2 ^ 32) by lia.
  assert (Ui : 0 <= i < 2 ^ 64) by lia. assert (Uj : 0 <= j < 2 ^ 64) by lia. assert (Uk : 0 <= j - 1 < 2 ^ 64) by lia.
  destruct (Next _ _ _ _ _ G Ri Di) as (xi & Gi). destruct (Next _ _ _ _ _ G Rj Dj) as (xj & Gj).
  destruct (Next _ _ _ _ _ Gi Rk Dij) as (x1 & G1). destruct (Next _ _ _ _ _ Gj Ri Dji) as (x2 & G2).
  destruct (delete_in _ _ _ _ _ _ G Ui Di) as [[X _]|(_ & Si & p1 & a1 & q1 & E1 & L1 & F1 & R1)]; [discriminate|].
  destruct (delete_in _ _ _ _ _ _ Gi Uk Dij) as [[X _]|(_ & Sij & p2 & a2 & q2 & E2 & L2 & F2 & R2)]; [discriminate|].
  destruct (delete_in _ _ _ _ _ _ G Uj Dj) as [[X _]|(_ & Sj & p3 & a3 & q3 & E3 & L3 & F3 & R3)]; [discriminate|].
  destruct (delete_in _ _ _ _ _ _ Gj Ui Dji) as [[X _]|(_ & Sji & p4 & a4 & q4 & E4 & L4 & F4 & R4)]; [discriminate|].
  (* p3 = p1 ++ a1 :: m, q1 = m ++ a3 :: q3 *)
  assert (M : exists m, p3 = p1 ++ a1 :: m /\ q1 = m ++ a3 :: q3).
  { rewrite E1 in E3. assert (Lt : zlen p1 < zlen p3) by lia. clear -E3 Lt. revert p3 E3 Lt. induction p1 as [|x p1 IH]; intros [|y p3] E Lt; cbn [app] in *; rewrite ?zlen_nil, ?zlen_cons in *; try lia; try (pose proof (zlen_nonneg p1); lia).
    - injection E as -> E. exists p3. auto.
    - injection E as -> E. destruct (IH p3 E ltac:(lia)) as (m & -> & ->). exists m. auto. }
  destruct M as (m & -> & ->). revert L3. zl. intros L3.
  rewrite F1, app_assoc in E2. apply app_mid' in E2 as (<- & <- & <-); [|zl; lia].
  rewrite F3, <- app_assoc in E4. cbn [app] in E4. apply app_mid' in E4 as (<- & <- & <-); [|lia].
  assert (E : troot t1 = troot t2).
  { destruct G1 as (_ & C1 & H1 & _), G2 as (_ & C2 & H2 & _). apply tree_unique; auto; [|rewrite F2, F4; now rewrite <- app_assoc].
    pose proof (reach_distinct seed h t S R L) as N. rewrite E3 in N. rewrite map_app in N. cbn [map] in N. apply NoDup_remove_1 in N. rewrite <- map_app, <- app_assoc in N. cbn [app] in N. rewrite map_app in N. cbn [map] in N. apply NoDup_remove_1 in N. rewrite <- map_app in N. rewrite F2, <- app_assoc. exact N. }
  assert (E5 : tseed t1 = tseed t2) by congruence. split; [destruct t1, t2; cbn in E, E5; congruence|]. split; congruence.
Qed.
(** looking up an item visits one node for the item itself and one for each item that has a greater priority
    than all items from there to it: an average of 2 ln n for random priorities *)
Theorem c112_get_cost A seed (h : list (top A)) t p x q : 0 <= seed < 2 ^ 32 -> reach seed h t -> Z.of_nat (length h) <= 2 ^ 31 -> inorder (troot t) = p ++ x :: q ->
  tlist_get_cost t (zlen p) = ((fst x + 24, Some (snd (snd x))), 1 + records (prio x) (map prio q) + records (prio x) (rev (map prio p))) /\
  fst (tlist_get_cost t (zlen p)) = tlist_get t (zlen p).
Proof.
  intros S R L E. destruct (reach_good _ _ _ R) as (xs & G). pose proof G as (Ee & C & H & B). pose proof (zlen_nonneg p). pose proof (zlen_nonneg q).
  assert (Sz : size (troot t) = zlen p + 1 + zlen q) by (rewrite <- inorder_len, E; zl; lia). assert (Sx : size (troot t) = zlen xs) by (unfold size; now rewrite Ee).
  pose proof (cost_ok (troot t) 0 p x q C H (reach_distinct _ _ _ S R L) ltac:(lia) ltac:(lia) E) as K. rewrite Z.add_0_l in K.
  assert (Gt : tlist_get t (zlen p) = (fst x + 24, Some (snd (snd x)))).
  { rewrite (get_good t xs (zlen p) (fst x, snd (snd x)) G) by lia. rewrite <- Ee, <- inorder_elems, E, map_app. cbn [map].
    replace (zlen p) with (zlen (map (fun y : Z * (Z * A) => (fst y, snd (snd y))) p)) by apply zlen_map. rewrite znth_app_exact. reflexivity. }
  assert (F : fst (tlist_get_cost t (zlen p)) = tlist_get t (zlen p)).
  { unfold tlist_get_cost, tlist_get. rewrite <- cost_fst. destruct (getitem_cost (troot t) (u32 (zlen p)) 0). reflexivity. }
  split; [|exact F]. rewrite <- Gt, <- F, <- K. unfold tlist_get_cost. rewrite u32_id by lia. destruct (getitem_cost (troot t) (zlen p) 0). reflexivity.
Qed.
Print Assumptions c112_cartesian.
Print Assumptions c112_distinct.
Print Assumptions c112_unique.
Print Assumptions c112_insert_delete.
Print Assumptions c112_delete_two.
Print Assumptions c112_get_cost.
Definition ex_h : list (top Z) := [TApp (Some 100) 7; TIns (Some 200) 0 8; TIns (Some 400) 1 9; TApp (Some 500) 6; TApp (Some 600) 5; TDel 2; TApp (Some 700) 4].
Example c112_ex : match trun tlist_new ex_h with
  | Ret (_, t) => map fst (inorder (troot t)) = [200; 400; 500; 600; 700] /\ map (fun i => snd (tlist_get_cost t i)) [0; 1; 2; 3; 4] = [3; 2; 3; 1; 2] /\
      map (fun i => let ks := map prio (inorder (troot t)) in 1 + records (znth 0 ks i) (zdrop (i + 1) ks) + records (znth 0 ks i) (rev (ztake i ks))) [0; 1; 2; 3; 4] = [3; 2; 3; 1; 2]
  | _ => False end.
Proof. vm_compute. auto. Qed.
Example c112_ex_delete : match trun tlist_new ex_h with
  | Ret (_, t) => let '(r, t1) := tlist_insert (Some 900) t 3 1 in
      match tlist_delete t1 3 with Ret (1, [900], t2) => troot t2 = troot t /\ troot t1 <> troot t | _ => False end
  | _ => False end.
Proof. vm_compute. split; [reflexivity|discriminate]. Qed.
