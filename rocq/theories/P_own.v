From Verif Require Import Base M_heap S_heap P_heap M_own D_own.
From Coq Require Import Permutation.

Definition nn (p : Z) : list Z := if p =? 0 then [] else [p].
Definition owned {A} (l : hsb A) : list Z := nn (hself l) ++ nn (hbuf l).
Lemma nn0 : nn 0 = []. Proof. reflexivity. Qed.
Lemma nn1 p : p <> 0 -> nn p = [p]. Proof. intros H. unfold nn. now replace (p =? 0) with false by lia. Qed.
Lemma owned_with {A} (l : hsb A) xs : owned (with_items l xs) = owned l. Proof. reflexivity. Qed.

Lemma free_nn h base own p : owns h base (nn p ++ own) -> exists h', hfree h p = Ret h' /\ owns h' base own /\ script h' = script h.
Proof.
  intros O. destruct (Z.eq_dec p 0) as [->|N]; [exists h; rewrite hfree_null, nn0 in *; auto|]. rewrite nn1 in O by exact N. now apply hfree_ok.
Qed.
Lemma sb_new_ok A h bi base own : owns h base own ->
  exists r h', @sb_new A h bi = (r, h') /\
    match r with
    | None => owns h' base own
    | Some l => hbuf l = 0 /\ hcapa l = 0 /\ hits l = [] /\ hself l <> 0 /\ owns h' base (owned l ++ own)
    end.
Proof.
  intros O. unfold sb_new. destruct (halloc_ok _ _ _ O) as (q & h' & -> & [(-> & O' & _)|(Q & O' & _)]).
  - exists None, h'. auto.
  - unfold NULL. replace (q =? 0) with false by lia. do 2 eexists. split; [reflexivity|]. cbn. repeat split; auto; try apply O'. unfold owned. cbn. rewrite nn1 by exact Q. apply O'.
Qed.
Lemma sb_grow_ok A h base own (l : hsb A) : owns h base (owned l ++ own) ->
  exists ok h' l', sb_grow h l = Ret (ok, h', l') /\ owns h' base (owned l' ++ own) /\ hself l' = hself l /\ hits l' = hits l /\ (ok = true -> zlen (hits l) = hcapa l -> hbuf l' <> 0) /\
    ((forall s, script h <> false :: s) -> ok = true).
Proof.
  intros O. unfold sb_grow. destruct (Z.eqb_spec (zlen (hits l)) (hcapa l)) as [E|E].
  2:{ do 3 eexists. split; [reflexivity|]. split; [exact O|]. repeat split; auto. }
  assert (X : exists q h', hrealloc h (hbuf l) = Ret (q, h') /\ (q = 0 /\ owns h' base (owned l ++ own) /\ (exists s, script h = false :: s) \/ q <> 0 /\ owns h' base (nn (hself l) ++ [q] ++ own) /\ forall s, script h <> false :: s)).
  { unfold owned in *. destruct (Z.eq_dec (hbuf l) 0) as [Z0|N].
    - rewrite Z0, nn0, app_nil_r in *. rewrite hrealloc_null. destruct (halloc_ok _ _ _ O) as (q & h' & E' & [(-> & O' & D)|(Q & O' & D)]); rewrite E'; exists q, h' || exists 0, h'; (split; [reflexivity|]); [left; auto|right].
      split; [exact Q|]. split; [|exact D]. eapply owns_perm; [|exact O']. apply Permutation_middle.
    - rewrite (nn1 _ N) in *. destruct (hrealloc_ok h base (nn (hself l) ++ own) (hbuf l)) as (q & h' & E' & [(-> & O' & D)|(Q & O' & D)]).
      + eapply owns_perm; [|exact O]. rewrite <- app_assoc. symmetry. apply Permutation_middle.
      + exists 0, h'. split; [exact E'|]. left. split; [reflexivity|]. split; [|exact D]. eapply owns_perm; [|exact O']. rewrite <- app_assoc. apply Permutation_middle.
      + exists q, h'. split; [exact E'|]. right. split; [exact Q|]. split; [|exact D]. eapply owns_perm; [|exact O']. apply Permutation_middle. }
  destruct X as (q & h' & -> & [(-> & O' & s & D)|(Q & O' & D)]); cbn [bind].
  - exists false, h', l. split; [reflexivity|]. split; [exact O'|]. repeat split; auto; try discriminate. intros X. destruct (X s D).
  - unfold NULL. replace (q =? 0) with false by lia. do 3 eexists. split; [reflexivity|]. cbn. split; [|auto]. unfold owned. cbn. rewrite (nn1 _ Q), <- app_assoc. exact O'.
Qed.
Lemma sb_add_ok A h base own (l : hsb A) x : owns h base (owned l ++ own) ->
  exists ok h' l', sb_add h l x = Ret (ok, h', l') /\ owns h' base (owned l' ++ own) /\ hself l' = hself l /\ hits l' = (if ok : bool then hits l ++ [x] else hits l) /\ (ok = true -> zlen (hits l) = hcapa l -> hbuf l' <> 0) /\
    ((forall s, script h <> false :: s) -> ok = true).
Proof.
  intros O. unfold sb_add. destruct (sb_grow_ok _ _ _ _ l O) as (ok & h' & l' & -> & O' & S' & I' & N & D). cbn [bind]. destruct ok; do 3 eexists; (split; [reflexivity|]); split; auto; cbn; rewrite ?I'; auto.
Qed.
Lemma sb_insert_ok A h base own (l : hsb A) x pos : owns h base (owned l ++ own) ->
  exists ok h' l', sb_insert h l x pos = Ret (ok, h', l') /\ owns h' base (owned l' ++ own) /\ hself l' = hself l.
Proof.
  intros O. unfold sb_insert. destruct (sb_grow_ok _ _ _ _ l O) as (ok & h' & l' & -> & O' & S' & I' & _). cbn [bind]. destruct ok; do 3 eexists; (split; [reflexivity|]); split; auto.
Qed.
Lemma sb_free_items_ok A h base own (l : hsb A) : owns h base (owned l ++ own) ->
  exists h' l', sb_free_items h l = Ret (h', l') /\ owns h' base (owned l' ++ own) /\ hself l' = hself l /\ hbuf l' = 0 /\ hits l' = [].
Proof.
  intros O. unfold sb_free_items, owned in *. destruct (free_nn h base (nn (hself l) ++ own) (hbuf l)) as (h' & E & O' & _).
  { eapply owns_perm; [|exact O]. rewrite <- app_assoc. rewrite !app_assoc. apply Permutation_app_tail, Permutation_app_comm. }
  unfold NULL. destruct (Z.eqb_spec (hbuf l) 0) as [Z0|N].
  - rewrite Z0, hfree_null in E. injection E as <-. cbn [bind]. do 2 eexists. split; [reflexivity|]. cbn. rewrite app_nil_r. auto.
  - rewrite E. cbn [bind]. do 2 eexists. split; [reflexivity|]. cbn. rewrite app_nil_r. auto.
Qed.
Lemma sb_free_ok A h base own (l : hsb A) : owns h base (owned l ++ own) -> exists h', sb_free h l = Ret h' /\ owns h' base own.
Proof.
  intros O. unfold sb_free. destruct (sb_free_items_ok _ _ _ _ l O) as (h' & l' & -> & O' & S' & B & _). cbn [bind]. unfold owned in O'. rewrite B, nn0, app_nil_r in O'.
  destruct (free_nn _ _ _ _ O') as (h2 & E & O2 & _). exists h2. auto.
Qed.
Lemma srun_ok A (ops : list (sop A)) : forall h base own l, owns h base (owned l ++ own) ->
  exists h' l', srun h l ops = Ret (h', l') /\ owns h' base (owned l' ++ own) /\ hself l' = hself l.
Proof.
  induction ops as [|o ops IH]; intros h base own l O; cbn [srun]; [eauto|].
  destruct o as [x|x pos|i|x i| |].
  - destruct (sb_add_ok _ _ _ _ l x O) as (ok & h' & l' & -> & O' & S' & _). cbn [bind]. rewrite <- S'. now apply IH.
  - destruct (sb_insert_ok _ _ _ _ l x pos O) as (ok & h' & l' & -> & O' & S'). cbn [bind]. rewrite <- S'. now apply IH.
  - cbn [bind]. assert (E : owned (sb_delete l i) = owned l /\ hself (sb_delete l i) = hself l) by (unfold sb_delete; destruct (_ <? _); auto). destruct E as [E1 E2]. rewrite <- E2. apply IH. now rewrite E1.
  - cbn [bind]. assert (E : owned (sb_set l x i) = owned l /\ hself (sb_set l x i) = hself l) by (unfold sb_set; destruct (_ <=? _); auto). destruct E as [E1 E2]. rewrite <- E2. apply IH. now rewrite E1.
  - cbn [bind]. assert (E : owned (sb_pop l) = owned l /\ hself (sb_pop l) = hself l) by (unfold sb_pop, sb_delete; repeat destruct (_ <? _); auto). destruct E as [E1 E2]. rewrite <- E2. apply IH. now rewrite E1.
  - destruct (sb_free_items_ok _ _ _ _ l O) as (h' & l' & -> & O' & S' & _). cbn [bind]. rewrite <- S'. now apply IH.
Qed.
Lemma slife_ok A (ops : list (sop A)) h bi : sane h -> exists h', slife h bi ops = Ret h' /\ balanced h h'.
Proof.
  intros S. unfold slife. destruct (sb_new_ok A h bi _ _ (owns_start _ S)) as (r & h1 & -> & R). destruct r as [l|].
  - destruct R as (_ & _ & _ & _ & O). destruct (srun_ok _ ops _ _ _ _ O) as (h2 & l2 & -> & O2 & _). cbn [bind]. destruct (sb_free_ok _ _ _ _ _ O2) as (h3 & -> & O3). exists h3. split; [reflexivity|now apply owns_end].
  - exists h1. split; [reflexivity|now apply owns_end].
Qed.
Lemma slife_static_ok A (ops : list (sop A)) h bi : sane h -> exists h', slife_static h bi ops = Ret h' /\ balanced h h'.
Proof.
  intros S. unfold slife_static. assert (O : owns h (live h) (owned (@sb_init A bi) ++ [])) by (cbn; now apply owns_start).
  destruct (srun_ok _ ops _ _ _ _ O) as (h2 & l2 & -> & O2 & S2). cbn [bind]. destruct (sb_free_items_ok _ _ _ _ _ O2) as (h3 & l3 & -> & O3 & S3 & B3 & _). cbn [bind]. exists h3. split; [reflexivity|apply owns_end].
  unfold owned in O3. rewrite S3, S2, B3 in O3. exact O3.
Qed.

(** hashlist *)
Definition bown {A} (b : option (hsb A)) : list Z := match b with Some b => owned b | None => [] end.
Definition bowns {A} (bs : list (option (hsb A))) : list Z := concat (map bown bs).
Lemma bowns_app A (a b : list (option (hsb A))) : bowns (a ++ b) = bowns a ++ bowns b.
Proof. unfold bowns. now rewrite map_app, concat_app. Qed.
Lemma free_buckets_ok A (bs : list (option (hsb A))) : forall h base own, owns h base (bowns bs ++ own) -> exists h', free_buckets h bs = Ret h' /\ owns h' base own.
Proof.
  induction bs as [|b bs IH]; intros h base own O; cbn [free_buckets]; [eauto|]. unfold bowns in O. cbn [map concat] in O. destruct b as [b|]; [|now apply IH].
  rewrite <- app_assoc in O. destruct (sb_free_ok _ _ _ _ _ O) as (h1 & -> & O1). cbn [bind]. now apply IH.
Qed.
Lemma hl_new_ok A h n base : owns h base [] -> exists r h', @hl_new A h n = Ret (r, h') /\
  match r with None => owns h' base [] | Some l => lbkt l = zrepeat None n /\ owns h' base (bowns (lbkt l) ++ [ltab l; lself l]) end.
Proof.
  intros O. unfold hl_new, NULL. destruct (halloc_ok _ _ _ O) as (p & h1 & -> & [(-> & O1 & _)|(P & O1 & _)]); [exists None, h1; auto|]. replace (p =? 0) with false by lia.
  destruct (halloc_ok _ _ _ O1) as (t & h2 & -> & [(-> & O2 & _)|(T & O2 & _)]).
  - destruct (hfree_ok _ _ _ _ O2) as (h3 & E & O3 & _). replace (0 =? 0) with true by lia. rewrite E. cbn [bind]. exists None, h3. auto.
  - replace (t =? 0) with false by lia. do 2 eexists. split; [reflexivity|]. cbn. split; [reflexivity|].
    assert (X : bowns (zrepeat (@None (hsb A)) n) = []). { unfold bowns, zrepeat. induction (Z.to_nat n); cbn; auto. }
    unfold bowns in *. rewrite X. exact O2.
Qed.
Lemma hl_add_ok A h base (l : hhl A) hash x : 0 < zlen (lbkt l) -> owns h base (bowns (lbkt l) ++ [ltab l; lself l]) ->
  exists r h' l', hl_add h l hash x = Ret (r, h', l') /\ zlen (lbkt l') = zlen (lbkt l) /\ owns h' base (bowns (lbkt l') ++ [ltab l'; lself l']).
Proof.
  intros Z0 O. unfold hl_add. replace (zlen (lbkt l) =? 0) with false by lia. pose proof (Z.mod_pos_bound hash _ Z0) as B. set (i := hash mod zlen (lbkt l)) in *.
  destruct (zsplit i (lbkt l)) as (a & c & E & L); [lia|]. destruct c as [|b c]; [rewrite E, app_nil_r in B; lia|]. rewrite E. rewrite zread_at by auto. cbn [bind].
  rewrite E, bowns_app in O. unfold bowns at 2 in O. cbn [map concat] in O. change (concat (map bown c)) with (bowns c) in O.
  assert (X : exists b' h', match b with Some b => (Some b, h) | None => sb_new h 8 end = (b', h') /\
     match b' with None => b = None /\ owns h' base ((bowns a ++ bown b ++ bowns c) ++ [ltab l; lself l]) | Some b' => owns h' base (owned b' ++ (bowns a ++ bowns c) ++ [ltab l; lself l]) end).
  { assert (Pm : forall o, Permutation ((bowns a ++ o ++ bowns c) ++ [ltab l; lself l]) (o ++ (bowns a ++ bowns c) ++ [ltab l; lself l])).
    { intros o. rewrite !app_assoc. do 2 apply Permutation_app_tail. apply Permutation_app_comm. }
    destruct b as [b|].
    - do 2 eexists. split; [reflexivity|]. eapply owns_perm; [|exact O]. apply (Pm (owned b)).
    - destruct (sb_new_ok A h 8 _ _ O) as (r & h' & -> & R). do 2 eexists. split; [reflexivity|]. destruct r as [b'|]; [apply R|auto]. }
  destruct X as (b' & h1 & -> & R). destruct b' as [b'|].
  - destruct (sb_add_ok _ _ _ _ _ x R) as (ok & h2 & b2 & -> & O2 & _). cbn [bind]. rewrite zwrite_at by auto. cbn [bind]. do 3 eexists. split; [reflexivity|]. cbn [lbkt ltab lself]. split; [zl; lia|].
    rewrite bowns_app. unfold bowns at 2. cbn [map concat]. change (concat (map bown c)) with (bowns c). cbn [bown]. eapply owns_perm; [|exact O2]. rewrite !app_assoc. do 2 apply Permutation_app_tail. apply Permutation_app_comm.
  - destruct R as [-> R]. do 3 eexists. split; [reflexivity|]. rewrite E. split; [reflexivity|]. rewrite bowns_app. exact R.
Qed.
Lemma hl_adds_ok A (xs : list (Z * A)) : forall h base l, 0 < zlen (lbkt l) -> owns h base (bowns (lbkt l) ++ [ltab l; lself l]) ->
  exists h' l', hl_adds h l xs = Ret (h', l') /\ owns h' base (bowns (lbkt l') ++ [ltab l'; lself l']).
Proof.
  induction xs as [|[hash x] xs IH]; intros h base l Z0 O; cbn [hl_adds]; [eauto|]. destruct (hl_add_ok _ _ _ _ hash x Z0 O) as (r & h1 & l1 & -> & L & O1). cbn [bind]. apply IH; [lia|exact O1].
Qed.
Lemma hlife_ok A (xs : list (Z * A)) h n : sane h -> 0 < n -> exists h', hlife h n xs = Ret h' /\ balanced h h'.
Proof.
  intros S N. unfold hlife. destruct (hl_new_ok A h n _ (owns_start _ S)) as (r & h1 & -> & R). cbn [bind]. destruct r as [l|]; [|exists h1; split; [reflexivity|now apply owns_end]].
  destruct R as [B O]. destruct (hl_adds_ok _ xs _ _ _ ltac:(rewrite B, zlen_zrepeat; lia) O) as (h2 & l2 & -> & O2). cbn [bind]. unfold hl_free.
  destruct (free_buckets_ok _ _ _ _ _ O2) as (h3 & -> & O3). cbn [bind]. destruct (hfree_ok _ _ _ _ O3) as (h4 & -> & O4 & _). cbn [bind]. destruct (hfree_ok _ _ _ _ O4) as (h5 & -> & O5 & _). exists h5. split; [reflexivity|now apply owns_end].
Qed.
