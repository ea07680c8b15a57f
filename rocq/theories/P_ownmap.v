From Verif Require Import Base M_heap S_heap P_heap M_own P_own P_own2 M_ownmap D_ownmap.
From Coq Require Import Permutation.

Lemma tg_grow_ok A h base own (l : htg A) : owns h base (nn (tbuf l) ++ own) ->
  exists ok h' l', tg_grow h l = Ret (ok, h', l') /\ owns h' base (nn (tbuf l') ++ own) /\ tits l' = tits l.
Proof.
  intros O. unfold tg_grow, NULL. destruct (_ =? tcapa l); [|eauto 8]. destruct (Z.eq_dec (tbuf l) 0) as [E|E].
  - rewrite E, nn0 in *. rewrite hrealloc_null. destruct (halloc_ok _ _ _ O) as (q & h' & -> & [(-> & O' & _)|(Q & O' & _)]); cbn [bind].
    + change (0 =? 0) with true. cbn iota. exists false, h', l. rewrite E. auto.
    + replace (q =? 0) with false by lia. do 3 eexists. split; [reflexivity|]. cbn. rewrite (nn1 _ Q). auto.
  - rewrite (nn1 _ E) in O. destruct (hrealloc_ok _ _ _ _ O) as (q & h' & -> & [(-> & O' & _)|(Q & O' & _)]); cbn [bind].
    + change (0 =? 0) with true. cbn iota. exists false, h', l. rewrite (nn1 _ E). auto.
    + replace (q =? 0) with false by lia. do 3 eexists. split; [reflexivity|]. cbn. rewrite (nn1 _ Q). auto.
Qed.
Lemma tg_insert_ok A h base own (l : htg A) x pos : owns h base (nn (tbuf l) ++ own) ->
  exists ok h' l', tg_insert h l x pos = Ret (ok, h', l') /\ owns h' base (nn (tbuf l') ++ own) /\ tits l' = (if ok : bool then ztake pos (tits l) ++ x :: zdrop pos (tits l) else tits l).
Proof.
  intros O. unfold tg_insert. destruct (tg_grow_ok _ _ _ _ l O) as (ok & h' & l' & -> & O' & I). cbn [bind]. destruct ok; do 3 eexists; (split; [reflexivity|]); split; auto. cbn. now rewrite I.
Qed.
Definition vown (v : hvals) : list Z := match v with VTg l => nn (tbuf l) | VTgi i l => nn (tbuf i) ++ nn (tbuf l) end.
Definition bmown (b : hbm) : list Z := nn (tbuf (bkeys b)) ++ vown (bvals b).
Lemma tgi_insert_ok h base own i l x pos : owns h base ((nn (tbuf i) ++ nn (tbuf l)) ++ own) ->
  exists ok h' i' l', tgi_insert h i l x pos = Ret (ok, h', i', l') /\ owns h' base ((nn (tbuf i') ++ nn (tbuf l')) ++ own).
Proof.
  intros O. unfold tgi_insert, tg_add. destruct (tg_insert_ok _ h base (nn (tbuf i) ++ own) l x (zlen (tits l))) as (ok & h1 & l1 & -> & O1 & I1). { eapply owns_perm; [|exact O]. perm. }
  cbn [bind]. destruct ok; cbn [negb].
  - destruct (tg_insert_ok _ h1 base (nn (tbuf l1) ++ own) i (zlen (tits l1) - 1) pos) as (ok & h2 & i2 & -> & O2 & I2). { eapply owns_perm; [|exact O1]. perm. }
    cbn [bind]. destruct ok; do 4 eexists; (split; [reflexivity|]); cbn; eapply owns_perm; try exact O2; perm.
  - do 4 eexists. split; [reflexivity|]. eapply owns_perm; [|exact O1]. perm.
Qed.
Lemma tgi_add_ok h base own i l x : owns h base ((nn (tbuf i) ++ nn (tbuf l)) ++ own) ->
  exists ok h' i' l', tgi_add h i l x = Ret (ok, h', i', l') /\ owns h' base ((nn (tbuf i') ++ nn (tbuf l')) ++ own) /\ zlen (tits l') = zlen (tits l) + (if ok then 1 else 0) /\ zlen (tits i') = zlen (tits i) + (if ok then 1 else 0).
Proof.
  intros O. unfold tgi_add, tg_add. destruct (tg_insert_ok _ h base (nn (tbuf l) ++ own) i (zlen (tits l)) (zlen (tits i))) as (ok & h1 & i1 & -> & O1 & I1). { eapply owns_perm; [|exact O]. perm. }
  cbn [bind]. destruct ok; cbn [negb].
  - destruct (tg_insert_ok _ h1 base (nn (tbuf i1) ++ own) l x (zlen (tits l))) as (ok & h2 & l2 & -> & O2 & I2). { eapply owns_perm; [|exact O1]. perm. }
    rewrite ztake_all, zdrop_all in I1, I2 by lia. cbn [bind]. destruct ok.
    + do 4 eexists. split; [reflexivity|]. split; [eapply owns_perm; [|exact O2]; perm|]. rewrite I1, I2. rewrite !zlen_app. auto.
    + do 4 eexists. split; [reflexivity|]. cbn. split; [eapply owns_perm; [|exact O2]; perm|]. rewrite I1, I2. split; [lia|]. replace (zlen (tits i ++ [zlen (tits l)]) - 1) with (zlen (tits i)) by (zl; lia). rewrite ztake_app_exact, zdrop_all, app_nil_r by (zl; lia). lia.
  - do 4 eexists. split; [reflexivity|]. split; [eapply owns_perm; [|exact O1]; perm|]. rewrite I1. lia.
Qed.
Lemma vals_insert_ok h base own v x pos : owns h base (vown v ++ own) -> exists ok h' v', vals_insert h v x pos = Ret (ok, h', v') /\ owns h' base (vown v' ++ own).
Proof.
  intros O. destruct v as [l|i l]; cbn [vals_insert].
  - destruct (tg_insert_ok _ _ _ _ l x pos O) as (ok & h' & l' & -> & O' & _). cbn [bind]. eauto 8.
  - destruct (tgi_insert_ok _ _ _ i l x pos O) as (ok & h' & i' & l' & -> & O'). cbn [bind]. eauto 8.
Qed.
Lemma vown_set v x pos : vown (vals_set v x pos) = vown v. Proof. destruct v; reflexivity. Qed.
Lemma vown_delete v pos : vown (vals_delete v pos) = vown v. Proof. destruct v; reflexivity. Qed.
Lemma nocheck_ok h base own b pos k v : owns h base (bmown b ++ own) -> exists r h' b', bm_insert_nocheck h b pos k v = Ret (r, h', b') /\ owns h' base (bmown b' ++ own).
Proof.
  intros O. unfold bm_insert_nocheck, bmown in *. destruct (tg_insert_ok _ h base (vown (bvals b) ++ own) (bkeys b) k pos) as (ok & h1 & l1 & -> & O1 & _). { eapply owns_perm; [|exact O]. perm. }
  cbn [bind]. destruct ok; cbn [negb].
  - destruct (vals_insert_ok h1 base (nn (tbuf l1) ++ own) (bvals b) v pos) as (ok & h2 & v2 & -> & O2). { eapply owns_perm; [|exact O1]. perm. }
    cbn [bind]. destruct ok; do 3 eexists; (split; [reflexivity|]); cbn; eapply owns_perm; try exact O2; perm.
  - do 3 eexists. split; [reflexivity|]. cbn. eapply owns_perm; [|exact O1]. perm.
Qed.
Lemma bstep_ok h base own b o : owns h base (bmown b ++ own) -> exists h' b', bstep h b o = Ret (h', b') /\ owns h' base (bmown b' ++ own).
Proof.
  intros O. destruct o as [pos k v|f pos k v|pos|pos v]; cbn [bstep].
  - destruct (nocheck_ok _ _ _ b pos k v O) as (r & h' & b' & -> & O'). cbn [bind]. eauto.
  - unfold bm_insert. destruct f as [i|].
    + do 2 eexists. split; [reflexivity|]. unfold bmown in *. cbn [bkeys bvals]. now rewrite vown_set.
    + destruct (nocheck_ok _ _ _ b pos k v O) as (r & h' & b' & -> & O'). cbn [bind]. eauto.
  - do 2 eexists. split; [reflexivity|]. unfold bmown, bm_delete in *. cbn [bkeys bvals]. now rewrite vown_delete.
  - do 2 eexists. split; [reflexivity|]. unfold bmown in *. cbn [bkeys bvals]. now rewrite vown_set.
Qed.
Lemma bruns_ok ops : forall h base own b, owns h base (bmown b ++ own) -> exists h' b', bruns h b ops = Ret (h', b') /\ owns h' base (bmown b' ++ own).
Proof.
  induction ops as [|o ops IH]; intros h base own b O; cbn [bruns]; [eauto|]. destruct (bstep_ok _ _ _ _ o O) as (h' & b' & -> & O'). cbn [bind]. now apply IH.
Qed.
Lemma tg_free_values_ok h base own l : owns h base (tits l ++ own) -> exists h' l', tg_free_values h l = Ret (h', l') /\ owns h' base own /\ tbuf l' = tbuf l /\ tits l' = [].
Proof.
  intros O. unfold tg_free_values. destruct (free_all_ok (rev (tits l)) h base own) as (h' & -> & O'). { eapply owns_perm; [|exact O]. apply Permutation_app_tail, Permutation_rev. }
  cbn [bind]. do 2 eexists. split; [reflexivity|]. auto.
Qed.
(** what the flags ask to be freed *)
Definition asked (flags : Z) (b : hbm) : list Z :=
  (if Z.land flags 1 =? 0 then [] else stored_keys b) ++ (if Z.land flags 2 =? 0 then [] else stored_vals b).
Lemma bm_fini_ok h base own b flags : owns h base (asked flags b ++ bmown b ++ own) -> exists h' b', bm_fini h b flags = Ret (h', b') /\ owns h' base own.
Proof.
  intros O. unfold bm_fini, asked, bmown in *.
  assert (X : exists h1 k, (if Z.land flags 1 =? 0 then Ret (h, bkeys b) else tg_free_values h (bkeys b)) = Ret (h1, k) /\ tbuf k = tbuf (bkeys b) /\
     owns h1 base ((if Z.land flags 2 =? 0 then [] else stored_vals b) ++ (nn (tbuf (bkeys b)) ++ vown (bvals b)) ++ own)).
  { destruct (Z.land flags 1 =? 0); [do 2 eexists; split; [reflexivity|]; auto|]. rewrite <- app_assoc in O. destruct (tg_free_values_ok _ _ _ _ O) as (h1 & k & -> & O1 & T & _). eauto. }
  destruct X as (h1 & k & -> & T & O1). cbn [bind]. clear O.
  assert (X : exists h2 v, (if Z.land flags 2 =? 0 then Ret (h1, bvals b) else match bvals b with VTg l => let* (h, l) := tg_free_values h1 l in Ret (h, VTg l) | VTgi i l => let* (h, l) := tg_free_values h1 l in Ret (h, VTgi i l) end) = Ret (h2, v) /\
     vown v = vown (bvals b) /\ owns h2 base ((nn (tbuf (bkeys b)) ++ vown (bvals b)) ++ own)).
  { destruct (Z.land flags 2 =? 0); [do 2 eexists; split; [reflexivity|]; auto|]. unfold stored_vals in O1. destruct (bvals b) as [l|i l]; destruct (tg_free_values_ok _ _ _ _ O1) as (h2 & v & -> & O2 & T2 & _); cbn [bind]; do 2 eexists; (split; [reflexivity|]); split; auto; cbn; now rewrite T2. }
  destruct X as (h2 & v & -> & V & O2). cbn [bind]. clear O1. unfold tg_free_items. rewrite T. rewrite <- app_assoc in O2. destruct (free_nn _ _ _ _ O2) as (h3 & -> & O3 & _). cbn [bind]. rewrite <- V in O3. destruct v as [l|i l]; cbn [vown] in O3.
  - destruct (free_nn _ _ _ _ O3) as (h4 & -> & O4 & _). cbn [bind]. eauto.
  - rewrite <- app_assoc in O3. destruct (free_nn _ _ _ _ O3) as (h4 & -> & O4 & _). cbn [bind]. destruct (free_nn _ _ _ _ O4) as (h5 & -> & O5 & _). cbn [bind]. eauto.
Qed.
Definition hbown (bs : list hbm) : list Z := concat (map bmown bs).
Lemma hbown_app a b : hbown (a ++ b) = hbown a ++ hbown b. Proof. unfold hbown. now rewrite map_app, concat_app. Qed.
Lemma hbown_cons b bs : hbown (b :: bs) = bmown b ++ hbown bs. Proof. reflexivity. Qed.
Lemma hb_fini_ok bs flags : forall h base own, owns h base (concat (map (asked flags) bs) ++ hbown bs ++ own) -> exists h' bs', hb_fini h bs flags = Ret (h', bs') /\ owns h' base own.
Proof.
  induction bs as [|b bs IH]; intros h base own O; cbn [hb_fini]; [eauto|]. cbn [map concat] in O. rewrite hbown_cons in O.
  destruct (bm_fini_ok h base (concat (map (asked flags) bs) ++ hbown bs ++ own) b flags) as (h1 & b1 & -> & O1). { eapply owns_perm; [|exact O]. perm. }
  cbn [bind]. destruct (IH _ _ _ O1) as (h2 & b2 & -> & O2). cbn [bind]. eauto.
Qed.
Lemma hruns_ok ops : forall h base bs, Forall (fun o => 0 <= fst o < zlen bs) ops -> owns h base (hbown bs) -> exists h' bs', hruns h bs ops = Ret (h', bs') /\ owns h' base (hbown bs') /\ zlen bs' = zlen bs.
Proof.
  induction ops as [|[i o] ops IH]; intros h base bs F O; cbn [hruns]; [eauto|]. inversion F as [|x y B F' E1]; subst. cbn [fst] in B.
  destruct (zsplit i bs) as (a & c & E & L); [lia|]. destruct c as [|b c]; [rewrite E, app_nil_r in B; lia|]. rewrite E. rewrite zread_at by auto. cbn [bind]. rewrite E, hbown_app, hbown_cons in O.
  destruct (bstep_ok h base (hbown a ++ hbown c) b o) as (h1 & b1 & -> & O1). { eapply owns_perm; [|exact O]. perm. }
  cbn [bind]. rewrite zwrite_at by auto. cbn [bind]. assert (Z1 : zlen (a ++ b1 :: c) = zlen bs) by (rewrite E; zl; lia). destruct (IH h1 base (a ++ b1 :: c)) as (h2 & bs2 & E2 & O2 & Z2).
  - eapply Forall_impl; [|exact F']. cbn. lia.
  - rewrite hbown_app, hbown_cons. eapply owns_perm; [|exact O1]. perm.
  - exists h2, bs2. split; [exact E2|]. split; [exact O2|]. rewrite <- E. lia.
Qed.
